(** Proofs about lib/base64.c. *)
From Verif Require Import P_bytes M_base64 S_base64.
From Coq Require Import Init.Byte List ZArith Lia Bool.
Import ListNotations.
Open Scope Z_scope.

Lemma zrange_sweep (n : nat) (f : Z -> bool) :
  forallb (fun i => f (Z.of_nat i)) (seq 0 n) = true ->
  forall z, 0 <= z < Z.of_nat n -> f z = true.
Proof.
  intros H z Hz. rewrite forallb_forall in H.
  specialize (H (Z.to_nat z)). rewrite Z2Nat.id in H by lia. apply H.
  apply in_seq. lia.
Qed.

Lemma alphabet_sextet n : 0 <= n < 64 -> nth (Z.to_nat n) b64_alphabet x00 = sextet_char n.
Proof.
  intro H. apply beq_eq. revert n H.
  apply (zrange_sweep 64 (fun n => beq (nth (Z.to_nat n) b64_alphabet x00) (sextet_char n))).
  vm_compute. reflexivity.
Qed.

Lemma lookup_sextet n : 0 <= n < 64 -> map2_lookup (sextet_char n) = Some n.
Proof.
  intro H.
  assert (E : match map2_lookup (sextet_char n) with Some m => m =? n | None => false end = true).
  { revert n H.
    apply (zrange_sweep 64 (fun n => match map2_lookup (sextet_char n) with Some m => m =? n | None => false end)).
    vm_compute. reflexivity. }
  destruct (map2_lookup (sextet_char n)); [|discriminate].
  apply Z.eqb_eq in E. congruence.
Qed.

Lemma lookup_range c m : map2_lookup c = Some m -> 0 <= m < 64 /\ sextet_char m = c.
Proof.
  intro H.
  assert (E : (match map2_lookup c with
               | Some m => (0 <=? m) && (m <? 64) && beq (sextet_char m) c
               | None => true end) = true).
  { revert c H. intros c _. revert c. apply byte_sweep. vm_compute. reflexivity. }
  rewrite H in E. rewrite !andb_true_iff, beq_eq in E. destruct E as [[A B] C]. split; [lia|auto].
Qed.

Definition b64cb (c : byte) : bool :=
  ((65 <=? bv c) && (bv c <=? 90)) || ((97 <=? bv c) && (bv c <=? 122)) ||
  ((48 <=? bv c) && (bv c <=? 57)) || beq c "+"%byte || beq c "/"%byte.
Lemma b64cb_iff c : b64cb c = true <-> is_b64_char c.
Proof.
  unfold b64cb, is_b64_char.
  rewrite !orb_true_iff, !andb_true_iff, !Z.leb_le, !beq_eq. tauto.
Qed.

Lemma lookup_b64_char c : (exists m, map2_lookup c = Some m) <-> is_b64_char c.
Proof.
  assert (E : Bool.eqb (match map2_lookup c with Some _ => true | None => false end) (b64cb c) = true).
  { revert c. apply byte_sweep. vm_compute. reflexivity. }
  apply eqb_prop in E. rewrite <- b64cb_iff, <- E.
  destruct (map2_lookup c) as [m|].
  - split; eauto.
  - split; [intros [m H]; discriminate|discriminate].
Qed.

Lemma sextet_not_special n : 0 <= n < 64 -> sextet_char n <> "="%byte /\ sextet_char n <> x00.
Proof.
  intro H. rewrite <- !beq_neq.
  assert (E : negb (beq (sextet_char n) "="%byte) && negb (beq (sextet_char n) x00) = true).
  { revert n H. apply (zrange_sweep 64 (fun n => negb (beq (sextet_char n) "="%byte) && negb (beq (sextet_char n) x00))).
    vm_compute. reflexivity. }
  destruct (beq (sextet_char n) "="%byte), (beq (sextet_char n) x00); cbn in E; auto; discriminate.
Qed.

Lemma sextet_b64 n : 0 <= n < 64 -> is_b64_char (sextet_char n).
Proof. intro H. apply lookup_b64_char. exists n. apply lookup_sextet; auto. Qed.

(** Encoding. *)
Definition ech (i_bits i_shift : Z) : byte :=
  nth (Z.to_nat (Z.land (Z.shiftr (u32 (Z.shiftl i_bits 6)) i_shift) 0x3f)) b64_alphabet x00.

Lemma ech_val i_bits s : 0 <= s -> ech i_bits s = sextet_char ((i_bits * 64) mod 4294967296 / 2 ^ s mod 64).
Proof.
  intro Hs. unfold ech. rewrite alphabet_sextet.
  - unfold u32. rewrite Z.shiftl_mul_pow2, Z.shiftr_div_pow2 by lia.
    change 63 with (Z.ones 6). rewrite Z.land_ones by lia. reflexivity.
  - change 63 with (Z.ones 6). rewrite Z.land_ones by lia.
    apply Z.mod_pos_bound. lia.
Qed.

Definition nbits (i_bits : Z) (b : byte) := u32 (u32 (Z.shiftl i_bits 8) + bv b).
Lemma nbits_val i b : nbits i b = (i * 256 + bv b) mod 4294967296.
Proof. unfold nbits, u32. rewrite Z.shiftl_mul_pow2 by lia. change (2^8) with 256.
  rewrite Z.add_mod_idemp_l by lia. reflexivity. Qed.

Lemma go_unfold bits sh b r :
  b64_encode_go bits sh (b :: r) =
  (let i_bits' := nbits bits b in
   let '(cs, sh') := b64_emit 8 i_bits' (sh + 8) (match r with [] => true | _ => false end) in
   cs ++ b64_encode_go i_bits' sh' r).
Proof. reflexivity. Qed.

Lemma emit_ech f bits sh last :
  b64_emit (S f) bits sh last =
  (if (sh - 6 >? 6) || (last && (sh - 6 >? 0))
   then let '(cs, s) := b64_emit f bits (sh - 6) last in (ech bits sh :: cs, s)
   else ([ech bits sh], sh - 6)).
Proof. reflexivity. Qed.

Ltac emit := repeat (rewrite emit_ech; cbn [Z.sub Z.opp Z.add Z.pos_sub Pos.sub Pos.sub_mask Pos.double_mask Pos.succ_double_mask Pos.pred_double Z.gtb Z.compare Pos.compare Pos.compare_cont orb andb Z.pred_double Z.succ_double Z.double Pos.double_pred_mask]).

Lemma go6 bits d r : b64_encode_go bits 6 (d :: r) = ech (nbits bits d) 14 :: b64_encode_go bits 0 (d :: r).
Proof.
  rewrite (go_unfold bits 6), (go_unfold bits 0). cbv zeta.
  change (6 + 8) with 14. change (0 + 8) with 8.
  destruct r; emit; reflexivity.
Qed.

Lemma ech_eq bits s n :
  0 <= s -> (bits * 64) mod 4294967296 / 2 ^ s mod 64 = n -> ech bits s = sextet_char n.
Proof. intros Hs <-. apply ech_val; auto. Qed.

Ltac ech := (apply ech_eq; [lia|]); rewrite !nbits_val;
  repeat match goal with b : byte |- _ =>
    match goal with |- context [bv b] => pose proof (bv_range b); generalize dependent (bv b); clear b; intros end end;
  match goal with |- context [2 ^ ?s] => let v := eval vm_compute in (2 ^ s) in change (2 ^ s) with v end; lia.

Lemma go1 bits a : b64_encode_go bits 0 [a] = [sextet_char (bv a / 4); sextet_char (bv a mod 4 * 16)].
Proof.
  rewrite go_unfold. cbv zeta. change (0 + 8) with 8. emit. cbn [b64_encode_go app].
  repeat f_equal; ech.
Qed.

Lemma go2 bits a b : b64_encode_go bits 0 [a; b] =
  [sextet_char (bv a / 4); sextet_char (bv a mod 4 * 16 + bv b / 16); sextet_char (bv b mod 16 * 4)].
Proof.
  rewrite go_unfold. cbv zeta. change (0 + 8) with 8. emit.
  rewrite go_unfold. cbv zeta. change (2 + 8) with 10. emit. cbn [b64_encode_go app].
  repeat f_equal; ech.
Qed.

Lemma go3 bits a b c : b64_encode_go bits 0 [a; b; c] =
  [sextet_char (bv a / 4); sextet_char (bv a mod 4 * 16 + bv b / 16);
   sextet_char (bv b mod 16 * 4 + bv c / 64); sextet_char (bv c mod 64)].
Proof.
  rewrite go_unfold. cbv zeta. change (0 + 8) with 8. emit.
  rewrite go_unfold. cbv zeta. change (2 + 8) with 10. emit.
  rewrite go_unfold. cbv zeta. change (4 + 8) with 12. emit. cbn [b64_encode_go app].
  repeat f_equal; ech.
Qed.

Lemma go4 bits a b c d r : exists bits',
  b64_encode_go bits 0 (a :: b :: c :: d :: r) =
  sextet_char (bv a / 4) :: sextet_char (bv a mod 4 * 16 + bv b / 16) ::
  sextet_char (bv b mod 16 * 4 + bv c / 64) :: sextet_char (bv c mod 64) ::
  b64_encode_go bits' 0 (d :: r).
Proof.
  exists (nbits (nbits (nbits bits a) b) c).
  rewrite go_unfold. cbv zeta. change (0 + 8) with 8. emit.
  rewrite go_unfold. cbv zeta. change (2 + 8) with 10. emit.
  rewrite go_unfold. cbv zeta. change (4 + 8) with 12. emit.
  rewrite go6. cbn [app].
  repeat f_equal; ech.
Qed.

Lemma pad_app4 a b c d s : b64_pad (a :: b :: c :: d :: s) = a :: b :: c :: d :: b64_pad s.
Proof.
  unfold b64_pad. cbn [app]. do 5 f_equal. f_equal. rewrite !zlen_cons.
  pose proof (zlen_nonneg s). lia.
Qed.

Lemma encode_go_rfc l : forall bits, b64_pad (b64_encode_go bits 0 l) = rfc4648 l.
Proof.
  remember (length l) as n eqn:E. revert l E.
  induction n as [n IH] using lt_wf_ind. intros l E bits.
  destruct l as [|a [|b [|c [|d r]]]].
  - reflexivity.
  - rewrite go1. reflexivity.
  - rewrite go2. reflexivity.
  - rewrite go3. reflexivity.
  - destruct (go4 bits a b c d r) as [bits' ->]. rewrite pad_app4.
    change (rfc4648 (a :: b :: c :: d :: r)) with
      (sextet_char (bv a / 4) :: sextet_char (bv a mod 4 * 16 + bv b / 16) ::
       sextet_char (bv b mod 16 * 4 + bv c / 64) :: sextet_char (bv c mod 64) :: rfc4648 (d :: r)).
    rewrite (IH (length (d :: r))); auto. subst n. cbn. lia.
Qed.

Theorem b64_encode_rfc l : b64_encode l = rfc4648 l.
Proof. apply encode_go_rfc. Qed.

(** Decoding: only the low 12 bits of the accumulator matter. *)
Definition dec_char (c : byte) : Prop := c <> "="%byte /\ c <> x00.

Lemma land3 i : 0 <= i -> Z.land i 3 = i mod 4.
Proof. intro. change 3 with (Z.ones 2). rewrite Z.land_ones by lia. reflexivity. Qed.

Lemma v_step v m : 0 <= m < 64 -> i32 (i32 (Z.shiftl v 6) + m) mod 4096 = (v mod 64) * 64 + m.
Proof. intro H. rewrite Z.shiftl_mul_pow2 by lia. change (2^6) with 64. unfold i32. lia. Qed.

Lemma dec_shift v i : 1 <= i <= 3 -> zb (Z.shiftr v (6 - 2 * i)) = zb ((v mod 4096) / 2 ^ (6 - 2 * i)).
Proof.
  intro H. rewrite Z.shiftr_div_pow2 by lia. apply bv_inj. rewrite !bv_zb.
  assert (C : i = 1 \/ i = 2 \/ i = 3) by lia.
  destruct C as [->|[->| ->]]; cbn [Z.mul Z.sub Z.add Z.opp Pos.mul Z.pos_sub Pos.pred_double Pos.succ].
  - change (2^(6-2)) with 16. lia.
  - change (2^(6-4)) with 4. lia.
  - change (2^(6-6)) with 1. lia.
Qed.

Lemma dec_step i v n r :
  0 <= n < 64 -> 0 <= i ->
  b64_decode_go i v (sextet_char n :: r) =
  (let v' := i32 (i32 (Z.shiftl v 6) + n) in
   let '(out, ok) := b64_decode_go (i + 1) v' r in
   if i mod 4 =? 0 then (out, ok)
   else (zb ((v mod 64 * 64 + n) / 2 ^ (6 - 2 * (i mod 4))) :: out, ok)).
Proof.
  intros Hn Hi. cbn [b64_decode_go].
  destruct (sextet_not_special n Hn) as [A B]. apply beq_neq in A, B. rewrite A, B.
  cbn [orb]. rewrite lookup_sextet by auto. cbv zeta.
  destruct (b64_decode_go (i+1) _ r).
  rewrite land3 by auto. destruct (i mod 4 =? 0) eqn:E; [reflexivity|].
  rewrite dec_shift by lia. rewrite v_step by auto. reflexivity.
Qed.

Lemma step_mod64 v n : 0 <= n < 64 -> i32 (i32 (Z.shiftl v 6) + n) mod 64 = n.
Proof. intro H. rewrite Z.shiftl_mul_pow2 by lia. change (2^6) with 64. unfold i32. lia. Qed.

Ltac pw := repeat match goal with |- context [2 ^ (6 - 2 * ?k)] =>
   let v := eval vm_compute in (2 ^ (6 - 2 * k)) in change (2 ^ (6 - 2 * k)) with v end.

Ltac bytelia :=
  match goal with |- zb _ = ?b => apply bv_inj; rewrite bv_zb end;
  repeat match goal with b : byte |- _ =>
    match goal with |- context [bv b] => pose proof (bv_range b); generalize dependent (bv b); clear b; intros end end;
  lia.

Lemma decode_rfc l : forall i v t, 0 <= i -> i mod 4 = 0 -> (t = [] \/ exists u, t = "="%byte :: u) ->
  b64_decode_go i v (strip_b64_eq (rfc4648 l) ++ t) = (l, true) /\
  b64_decode_go i v (rfc4648 l) = (l, true).
Proof.
  remember (length l) as n eqn:E. revert l E.
  induction n as [n IH] using lt_wf_ind. intros l E i v t Hi Hm Ht.
  assert (T : forall i v, b64_decode_go i v t = ([], true)).
  { intros. destruct Ht as [->|[u ->]]; reflexivity. }
  assert (NE : forall k, 0 <= k < 64 -> beq (sextet_char k) "="%byte = false).
  { intros k Hk. apply beq_neq. apply sextet_not_special; auto. }
  assert (Hi1 : (i + 1) mod 4 = 1) by lia.
  assert (Hi2 : (i + 1 + 1) mod 4 = 2) by lia.
  assert (Hi3 : (i + 1 + 1 + 1) mod 4 = 3) by lia.
  destruct l as [|a [|b [|c r]]].
  - cbn. auto.
  - pose proof (bv_range a). cbn [rfc4648 strip_b64_eq].
    rewrite !NE by lia. cbn [beq Byte.eqb]. rewrite ?beq_refl. cbn [app].
    repeat (rewrite dec_step by lia; cbv zeta). rewrite !T.
    cbn [b64_decode_go]. rewrite ?beq_refl, ?orb_true_r.
    rewrite Hm, Hi1. cbn [Z.eqb Pos.eqb]. rewrite step_mod64 by lia. pw.
    split; repeat f_equal; bytelia.
  - pose proof (bv_range a). pose proof (bv_range b). cbn [rfc4648 strip_b64_eq].
    rewrite !NE by lia. rewrite ?beq_refl. cbn [app].
    repeat (rewrite dec_step by lia; cbv zeta). rewrite !T.
    cbn [b64_decode_go]. rewrite ?beq_refl, ?orb_true_r.
    rewrite Hm, Hi1, Hi2. cbn [Z.eqb Pos.eqb]. rewrite !step_mod64 by lia. pw.
    split; repeat f_equal; bytelia.
  - pose proof (bv_range a). pose proof (bv_range b). pose proof (bv_range c).
    cbn [rfc4648 strip_b64_eq].
    rewrite !NE by lia. cbn [app].
    repeat (rewrite dec_step by lia; cbv zeta).
    rewrite Hm, Hi1, Hi2, Hi3. cbn [Z.eqb Pos.eqb]. rewrite !step_mod64 by lia. pw.
    assert (LT : (length r < n)%nat) by (subst n; cbn; lia).
    set (v' := i32 _).
    destruct (IH (length r) LT r eq_refl (i+1+1+1+1) v' t) as [E1 E2]; [lia|lia|auto|].
    rewrite E1, E2.
    split; repeat f_equal; bytelia.
Qed.

Theorem b64_round_trip l : b64_decode (b64_encode l) = Some l.
Proof.
  rewrite b64_encode_rfc. unfold b64_decode.
  destruct (decode_rfc l 0 0 []) as [_ ->]; auto; lia.
Qed.

Theorem b64_round_trip_stripped l : b64_decode (strip_b64_eq (b64_encode l)) = Some l.
Proof.
  rewrite b64_encode_rfc. rewrite <- (app_nil_r (strip_b64_eq _)). unfold b64_decode.
  destruct (decode_rfc l 0 0 []) as [-> _]; auto; lia.
Qed.

(** Whatever follows a '=' is ignored. *)
Theorem b64_decode_ignores_tail l t : b64_decode (strip_b64_eq (b64_encode l) ++ "="%byte :: t) = Some l.
Proof.
  rewrite b64_encode_rfc. unfold b64_decode.
  destruct (decode_rfc l 0 0 ("="%byte :: t)) as [-> _]; eauto; lia.
Qed.

Lemma rfc_chars l : Forall is_b64_char (strip_b64_eq (rfc4648 l)).
Proof.
  remember (length l) as n eqn:E. revert l E.
  induction n as [n IH] using lt_wf_ind. intros l E.
  assert (NE : forall k, 0 <= k < 64 -> beq (sextet_char k) "="%byte = false).
  { intros k Hk. apply beq_neq. apply sextet_not_special; auto. }
  destruct l as [|a [|b [|c r]]].
  - constructor.
  - pose proof (bv_range a). cbn [rfc4648 strip_b64_eq]. rewrite !NE by lia. rewrite beq_refl.
    repeat apply Forall_cons; try apply Forall_nil; apply sextet_b64; lia.
  - pose proof (bv_range a). pose proof (bv_range b). cbn [rfc4648 strip_b64_eq].
    rewrite !NE by lia. rewrite beq_refl. repeat apply Forall_cons; try apply Forall_nil; apply sextet_b64; lia.
  - pose proof (bv_range a). pose proof (bv_range b). pose proof (bv_range c).
    cbn [rfc4648 strip_b64_eq]. rewrite !NE by lia.
    repeat apply Forall_cons; try (apply sextet_b64; lia).
    apply (IH (length r)); auto. subst; cbn; lia.
Qed.

Lemma b64_stripped_chars l : Forall is_b64_char (strip_b64_eq (b64_encode l)).
Proof. rewrite b64_encode_rfc. apply rfc_chars. Qed.

Lemma b64_char_ok c : is_b64_char c -> c <> "="%byte /\ c <> x00 /\ c <> ":"%byte /\ isalnum c || beq c "+"%byte || beq c "/"%byte = true /\ isprint c = true.
Proof.
  intro H. apply b64cb_iff in H.
  assert (X : negb (b64cb c) ||
      (negb (beq c "="%byte) && negb (beq c x00) && negb (beq c ":"%byte) &&
      (isalnum c || beq c "+"%byte || beq c "/"%byte) && isprint c) = true).
  { clear H. revert c. apply byte_sweep. vm_compute. reflexivity. }
  rewrite <- !beq_neq. rewrite H in X. cbn [negb orb] in X.
  rewrite !andb_true_iff, !negb_true_iff in X. tauto.
Qed.

Lemma rfc_strip_pad l : exists k, (k <= 2)%nat /\ rfc4648 l = strip_b64_eq (rfc4648 l) ++ repeat "="%byte k.
Proof.
  remember (length l) as n eqn:E. revert l E.
  induction n as [n IH] using lt_wf_ind. intros l E.
  assert (NE : forall k, 0 <= k < 64 -> beq (sextet_char k) "="%byte = false).
  { intros k Hk. apply beq_neq. apply sextet_not_special; auto. }
  destruct l as [|a [|b [|c r]]].
  - exists 0%nat. auto.
  - exists 2%nat. pose proof (bv_range a). cbn [rfc4648 strip_b64_eq]. rewrite !NE by lia. rewrite beq_refl. auto.
  - exists 1%nat. pose proof (bv_range a). pose proof (bv_range b). cbn [rfc4648 strip_b64_eq].
    rewrite !NE by lia. rewrite beq_refl. auto.
  - pose proof (bv_range a). pose proof (bv_range b). pose proof (bv_range c).
    destruct (IH (length r)) with (l := r) as (k & Hk & Er); [subst; cbn; lia|auto|].
    exists k. split; auto.
    cbn [rfc4648 strip_b64_eq]. rewrite !NE by lia. cbn [app]. do 4 f_equal. exact Er.
Qed.

Lemma rfc_len l : zlen (rfc4648 l) = 4 * ((zlen l + 2) / 3).
Proof.
  remember (length l) as n eqn:E. revert l E.
  induction n as [n IH] using lt_wf_ind. intros l E.
  destruct l as [|a [|b [|c r]]]; try reflexivity.
  cbn [rfc4648]. rewrite !zlen_cons. rewrite (IH (length r)) by (auto; subst; cbn; lia).
  pose proof (zlen_nonneg r). lia.
Qed.

Lemma b64_encode_len l : zlen (b64_encode l) = 4 * ((zlen l + 2) / 3).
Proof. rewrite b64_encode_rfc. apply rfc_len. Qed.

Lemma b64_stripped_len l : zlen (strip_b64_eq (b64_encode l)) = (4 * zlen l + 2) / 3.
Proof.
  rewrite b64_encode_rfc.
  remember (length l) as n eqn:E. revert l E.
  induction n as [n IH] using lt_wf_ind. intros l E.
  assert (NE : forall k, 0 <= k < 64 -> beq (sextet_char k) "="%byte = false).
  { intros k Hk. apply beq_neq. apply sextet_not_special; auto. }
  destruct l as [|a [|b [|c r]]].
  - reflexivity.
  - pose proof (bv_range a). cbn [rfc4648 strip_b64_eq]. rewrite !NE by lia. rewrite beq_refl. reflexivity.
  - pose proof (bv_range a). pose proof (bv_range b). cbn [rfc4648 strip_b64_eq].
    rewrite !NE by lia. rewrite beq_refl. reflexivity.
  - pose proof (bv_range a). pose proof (bv_range b). pose proof (bv_range c).
    cbn [rfc4648 strip_b64_eq]. rewrite !NE by lia. rewrite !zlen_cons.
    rewrite (IH (length r)) by (auto; subst; cbn; lia). pose proof (zlen_nonneg r). lia.
Qed.

(** Size of the decoder's output, and exactly when it fails. *)
Lemma decode_go_spec s : forall i v body, 0 <= i -> b64_body s body ->
  let '(out, ok) := b64_decode_go i v s in
  if ok then Forall is_b64_char body /\ zlen out = zlen body - ((i + zlen body + 3) / 4 - (i + 3) / 4)
  else ~ Forall is_b64_char body /\ exists k, 0 <= k < zlen body /\ zlen out = k - ((i + k + 3) / 4 - (i + 3) / 4).
Proof.
  induction s as [|c s IH]; intros i v body Hi HB.
  - inversion HB; subst. cbn. split; [constructor|]. rewrite zlen_nil. lia.
  - inversion HB as [|s0|s0|c0 s0 t N1 N2 HB']; subst.
    + cbn [b64_decode_go]. rewrite ?beq_refl, ?orb_true_r. split; [constructor|]. rewrite !zlen_nil. lia.
    + cbn [b64_decode_go]. rewrite ?beq_refl. cbn [orb]. split; [constructor|]. rewrite !zlen_nil. lia.
    + cbn [b64_decode_go]. apply beq_neq in N1, N2. rewrite N1, N2. cbn [orb].
      pose proof (zlen_nonneg t).
      destruct (map2_lookup c) as [m|] eqn:L.
      * assert (BC : is_b64_char c) by (apply lookup_b64_char; eauto).
        cbv zeta. set (v' := i32 _). specialize (IH (i+1) v' t ltac:(lia) HB').
        destruct (b64_decode_go (i+1) v' s) as [out ok]. destruct ok.
        -- destruct IH as [F LN]. rewrite land3 by auto.
           destruct (i mod 4 =? 0) eqn:E4.
           ++ split; [constructor; auto|]. rewrite LN, zlen_cons. lia.
           ++ split; [constructor; auto|]. rewrite !zlen_cons, LN. lia.
        -- destruct IH as [F (k & Hk & LN)]. rewrite land3 by auto.
           destruct (i mod 4 =? 0) eqn:E4; (split; [intro X; inversion X; subst; tauto|]);
             exists (k + 1); autorewrite with zlen; lia.
      * split.
        -- intro F. inversion F as [|? ? F1 F2]; subst. apply lookup_b64_char in F1. destruct F1 as [m Hm]. congruence.
        -- exists 0. autorewrite with zlen. change (zlen (@nil byte)) with 0. lia.
Qed.

Theorem b64_decode_accepts s body :
  b64_body s body ->
  ((exists out, b64_decode s = Some out) <-> Forall is_b64_char body) /\
  (forall out, b64_decode s = Some out -> zlen out = 3 * zlen body / 4).
Proof.
  intro HB. pose proof (decode_go_spec s 0 0 body ltac:(lia) HB) as H. unfold b64_decode.
  destruct (b64_decode_go 0 0 s) as [out ok]. destruct ok.
  - destruct H as [F L]. split.
    + split; eauto.
    + intros o E. inversion E; subst. pose proof (zlen_nonneg body). lia.
  - split.
    + split; [intros [o E]; discriminate|destruct H; tauto].
    + intros o E; discriminate.
Qed.

Lemma b64_body_exists s : exists body, b64_body s body.
Proof.
  induction s as [|c s [t IH]].
  - exists []; constructor.
  - destruct (byte_eq_dec c "="%byte) as [->|]; [exists []; constructor|].
    destruct (byte_eq_dec c x00) as [->|]; [exists []; constructor|].
    exists (c :: t); constructor; auto.
Qed.
Lemma b64_body_len s body : b64_body s body -> zlen body <= zlen s.
Proof. induction 1; autorewrite with zlen; try lia; pose proof (zlen_nonneg s); lia. Qed.

(** Number of bytes stored, including the terminating NUL. *)
Theorem b64_decode_fits s : s <> [] -> zlen (b64_decode_stores s) <= zlen s.
Proof.
  intros NE. destruct (b64_body_exists s) as [body HB].
  pose proof (decode_go_spec s 0 0 body ltac:(lia) HB) as H. unfold b64_decode_stores.
  pose proof (b64_body_len _ _ HB). pose proof (zlen_nonneg body).
  assert (1 <= zlen s). { destruct s; [congruence|]. rewrite zlen_cons. pose proof (zlen_nonneg s). lia. }
  destruct (b64_decode_go 0 0 s) as [out ok]. destruct ok.
  - destruct H as [_ L]. autorewrite with zlen. change (zlen (@nil byte)) with 0. lia.
  - destruct H as [_ (k & Hk & L)]. lia.
Qed.
