(** Basic lemmas about bytes, lists and machine integers. *)
From Verif Require Export Bytes.
From Coq Require Import Init.Byte List ZArith NArith Lia Bool.
Import ListNotations.
Open Scope Z_scope.

Ltac Zify.zify_post_hook ::= Z.div_mod_to_equations.

Lemma bv_range b : 0 <= bv b < 256.
Proof. destruct b; cbv; split; congruence. Qed.

Lemma zb_bv b : zb (bv b) = b.
Proof. destruct b; reflexivity. Qed.

Lemma bv_inj a b : bv a = bv b -> a = b.
Proof. intro H. rewrite <- (zb_bv a), <- (zb_bv b), H; reflexivity. Qed.

Lemma bv_zb z : bv (zb z) = z mod 256.
Proof.
  unfold zb, bv.
  assert (H : 0 <= z mod 256 < 256) by (apply Z.mod_pos_bound; lia).
  destruct (Byte.of_N (Z.to_N (z mod 256))) eqn:E.
  - apply Byte.to_of_N in E. rewrite E. rewrite Z2N.id; lia.
  - apply Byte.of_N_None_iff in E. lia.
Qed.

Lemma bv_zb_small z : 0 <= z < 256 -> bv (zb z) = z.
Proof. intro. rewrite bv_zb. apply Z.mod_small; lia. Qed.

Lemma zb_mod z : zb (z mod 256) = zb z.
Proof. apply bv_inj. rewrite !bv_zb. apply Z.mod_mod; lia. Qed.

Lemma beq_eq a b : beq a b = true <-> a = b.
Proof.
  unfold beq. split; intro H.
  - apply Byte.byte_dec_bl; exact H.
  - subst. apply Byte.byte_dec_lb; reflexivity.
Qed.
Lemma beq_refl a : beq a a = true.
Proof. apply beq_eq; reflexivity. Qed.
Lemma beq_neq a b : beq a b = false <-> a <> b.
Proof. rewrite <- beq_eq. destruct (beq a b); split; congruence. Qed.
Lemma beq_sym a b : beq a b = beq b a.
Proof. destruct (beq a b) eqn:E; symmetry; [apply beq_eq in E; subst; apply beq_refl|].
  apply beq_neq in E. apply beq_neq. congruence. Qed.
Lemma beq_spec a b : reflect (a = b) (beq a b).
Proof. destruct (beq a b) eqn:E; constructor; [apply beq_eq|apply beq_neq]; auto. Qed.
Lemma beq_bv a b : beq a b = (bv a =? bv b).
Proof.
  destruct (beq_spec a b) as [->|n]; symmetry.
  - apply Z.eqb_refl.
  - apply Z.eqb_neq. intro H; apply n, bv_inj, H.
Qed.
Lemma byte_eq_dec (a b : byte) : {a = b} + {a <> b}.
Proof. destruct (beq a b) eqn:E; [left; apply beq_eq|right; apply beq_neq]; auto. Defined.

Lemma bseq_eq a b : bseq a b = true <-> a = b.
Proof.
  revert b; induction a as [|x a IH]; destruct b; cbn; split; try congruence; try tauto.
  - rewrite andb_true_iff, beq_eq, IH. intros [-> ->]; reflexivity.
  - intro H; inversion H; subst. rewrite beq_refl. apply IH; reflexivity.
Qed.
Lemma bseq_refl a : bseq a a = true.
Proof. apply bseq_eq; reflexivity. Qed.
Lemma bseq_neq a b : bseq a b = false <-> a <> b.
Proof. rewrite <- bseq_eq. destruct (bseq a b); split; congruence. Qed.

(** Lengths. *)
Lemma zlen_nil {A} : zlen (@nil A) = 0. Proof. reflexivity. Qed.
Lemma zlen_cons {A} (x : A) l : zlen (x :: l) = 1 + zlen l.
Proof. unfold zlen; cbn [length]; lia. Qed.
Lemma zlen_app {A} (a b : list A) : zlen (a ++ b) = zlen a + zlen b.
Proof. unfold zlen. rewrite app_length; lia. Qed.
Lemma zlen_nonneg {A} (l : list A) : 0 <= zlen l.
Proof. unfold zlen; lia. Qed.
Lemma zlen_map {A B} (f : A -> B) l : zlen (map f l) = zlen l.
Proof. unfold zlen. rewrite map_length; reflexivity. Qed.
Lemma zlen_repeat {A} (x : A) n : zlen (repeat x n) = Z.of_nat n.
Proof. unfold zlen. rewrite repeat_length; reflexivity. Qed.
Lemma zlen_zero {A} (l : list A) : zlen l = 0 -> l = [].
Proof. destruct l; [auto|rewrite zlen_cons; pose proof (zlen_nonneg l); lia]. Qed.
Lemma zlen_rev {A} (l : list A) : zlen (rev l) = zlen l.
Proof. unfold zlen. rewrite rev_length; reflexivity. Qed.
#[global] Hint Rewrite @zlen_nil @zlen_cons @zlen_app @zlen_map @zlen_repeat @zlen_rev : zlen.

Lemma zlen_ztake {A} n (l : list A) : 0 <= n <= zlen l -> zlen (ztake n l) = n.
Proof. unfold zlen, ztake. intros. rewrite firstn_length. lia. Qed.
Lemma zlen_ztake_le {A} n (l : list A) : zlen (ztake n l) <= zlen l.
Proof. unfold zlen, ztake. intros. rewrite firstn_length. lia. Qed.
Lemma zlen_zdrop {A} n (l : list A) : 0 <= n <= zlen l -> zlen (zdrop n l) = zlen l - n.
Proof. unfold zlen, zdrop. intros. rewrite skipn_length. lia. Qed.
Lemma ztake_zdrop {A} n (l : list A) : ztake n l ++ zdrop n l = l.
Proof. apply firstn_skipn. Qed.
Lemma ztake_app {A} n (a b : list A) : n = zlen a -> ztake n (a ++ b) = a.
Proof. intros ->. unfold ztake, zlen. rewrite Nat2Z.id.
  rewrite firstn_app, Nat.sub_diag, firstn_all. cbn. apply app_nil_r. Qed.
Lemma zdrop_app {A} n (a b : list A) : n = zlen a -> zdrop n (a ++ b) = b.
Proof. intros ->. unfold zdrop, zlen. rewrite Nat2Z.id.
  rewrite skipn_app, Nat.sub_diag, skipn_all. reflexivity. Qed.
Lemma ztake_all {A} n (l : list A) : zlen l <= n -> ztake n l = l.
Proof. intros. unfold ztake, zlen in *. apply firstn_all2. lia. Qed.
Lemma ztake_0 {A} (l : list A) : ztake 0 l = [].
Proof. reflexivity. Qed.
Lemma zdrop_0 {A} (l : list A) : zdrop 0 l = l.
Proof. reflexivity. Qed.

Lemma app_eq_len {A} (a b c d : list A) :
  a ++ b = c ++ d -> zlen a = zlen c -> a = c /\ b = d.
Proof.
  revert c. induction a as [|x a IH]; intros [|y c]; cbn; intros H L.
  - auto.
  - exfalso. rewrite zlen_cons, zlen_nil in L. pose proof (zlen_nonneg c). lia.
  - exfalso. rewrite zlen_cons, zlen_nil in L. pose proof (zlen_nonneg a). lia.
  - inversion H; subst. destruct (IH c) as [-> ->]; auto.
    rewrite !zlen_cons in L. lia.
Qed.

(** C strings. *)
Lemma cstr_no_nul l : no_nul (cstr l).
Proof.
  unfold no_nul. induction l as [|b l IH]; cbn; [tauto|].
  destruct (beq_spec b x00); cbn; [tauto|]. intros [->|H]; tauto.
Qed.
Lemma cstr_id l : no_nul l -> cstr l = l.
Proof.
  unfold no_nul. induction l as [|b l IH]; cbn; [auto|]. intro H.
  destruct (beq_spec b x00) as [->|]; [tauto|]. rewrite IH; auto.
Qed.
Lemma cstr_app_nul a b : no_nul a -> cstr (a ++ x00 :: b) = a.
Proof.
  unfold no_nul. induction a as [|c a IH]; cbn; [auto|]. intro H.
  destruct (beq_spec c x00) as [->|]; [tauto|]. rewrite IH; auto.
Qed.
Lemma no_nulb_iff l : no_nulb l = true <-> no_nul l.
Proof.
  unfold no_nulb, no_nul. rewrite forallb_forall. split.
  - intros H I. apply H in I. rewrite beq_refl in I. discriminate.
  - intros H x I. destruct (beq_spec x x00); [subst; tauto|reflexivity].
Qed.
Lemma cstr_len l : zlen (cstr l) <= zlen l.
Proof.
  induction l as [|b l IH]; cbn [cstr]; [lia|].
  destruct (beq b x00); autorewrite with zlen; pose proof (zlen_nonneg l); lia.
Qed.
Lemma cstr_idem l : cstr (cstr l) = cstr l.
Proof. apply cstr_id, cstr_no_nul. Qed.
Lemma no_nul_app a b : no_nul (a ++ b) <-> no_nul a /\ no_nul b.
Proof. unfold no_nul. rewrite in_app_iff. tauto. Qed.
Lemma no_nul_cons a b : no_nul (a :: b) <-> a <> x00 /\ no_nul b.
Proof. unfold no_nul. cbn. intuition congruence. Qed.
Lemma no_nul_nil : no_nul [].
Proof. unfold no_nul; cbn; tauto. Qed.

Lemma memb_In c l : memb c l = true <-> In c l.
Proof.
  unfold memb. rewrite existsb_exists. split.
  - intros (x & I & E). apply beq_eq in E. subst; auto.
  - intro I. exists c. split; auto. apply beq_refl.
Qed.

Lemma index_of_None c l : index_of c l = None <-> ~ In c l.
Proof.
  induction l as [|b l IH]; cbn; [tauto|].
  destruct (beq_spec b c) as [->|n]; [split; [discriminate|tauto]|].
  destruct (index_of c l) as [i|]; split; intro H; try discriminate; try tauto.
  destruct IH as [_ IH]. assert (X : ~ In c l) by tauto. apply IH in X; discriminate.
Qed.
Lemma index_of_app c a b : ~ In c a -> index_of c (a ++ c :: b) = Some (List.length a).
Proof.
  induction a as [|x a IH]; cbn; intro H.
  - rewrite beq_refl; reflexivity.
  - destruct (beq_spec x c) as [->|]; [tauto|]. rewrite IH; tauto.
Qed.
Lemma index_of_Some c l i :
  index_of c l = Some i ->
  exists a b, l = a ++ c :: b /\ List.length a = i /\ ~ In c a.
Proof.
  revert i; induction l as [|x l IH]; cbn; intros i H; [discriminate|].
  destruct (beq_spec x c) as [->|n].
  - inversion H; subst. exists [], l. cbn. auto.
  - destruct (index_of c l) as [j|]; [|discriminate]. inversion H; subst.
    destruct (IH j eq_refl) as (a & b & -> & L & N).
    exists (x :: a), b. cbn. rewrite L. split; [reflexivity|split;[reflexivity|]].
    intros [?|?]; [congruence|tauto].
Qed.

Lemma is_prefix_app p l : is_prefix p l = true <-> exists r, l = p ++ r.
Proof.
  revert l; induction p as [|x p IH]; cbn; intro l.
  - split; eauto.
  - destruct l as [|y l]; [split; [discriminate|intros [r H]; discriminate]|].
    rewrite andb_true_iff, beq_eq, IH. split.
    + intros [-> [r ->]]. exists r; reflexivity.
    + intros [r H]. inversion H; subst. split; eauto.
Qed.

(** Machine integers. *)
Lemma i32_small z : -2147483648 <= z < 2147483648 -> i32 z = z.
Proof. unfold i32. lia. Qed.
Lemma i32_range z : -2147483648 <= i32 z < 2147483648.
Proof. unfold i32. lia. Qed.
Lemma u32_small z : 0 <= z < 4294967296 -> u32 z = z.
Proof. unfold u32. lia. Qed.
Lemma u16_small z : 0 <= z < 65536 -> u16 z = z.
Proof. unfold u16. lia. Qed.
Lemma i64_small z : -9223372036854775808 <= z < 9223372036854775808 -> i64 z = z.
Proof. unfold i64. lia. Qed.

(** Character classes by value. *)
Lemma isdigit_bv b : isdigit b = true <-> 48 <= bv b <= 57.
Proof. unfold isdigit. lia. Qed.

(** Sweep over all 256 bytes. *)
Definition all_bytes : bytes := map (fun n => zb (Z.of_nat n)) (seq 0 256).
Lemma all_bytes_complete b : In b all_bytes.
Proof.
  unfold all_bytes. apply in_map_iff. exists (Z.to_nat (bv b)). pose proof (bv_range b).
  split.
  - rewrite Z2Nat.id by lia. apply zb_bv.
  - apply in_seq. lia.
Qed.
Lemma byte_sweep (f : byte -> bool) : forallb f all_bytes = true -> forall b, f b = true.
Proof. intros H b. rewrite forallb_forall in H. apply H, all_bytes_complete. Qed.

Lemma skipn_skipn {A} (n m : nat) (l : list A) : skipn n (skipn m l) = skipn (m + n) l.
Proof.
  revert l; induction m as [|m IH]; intro l; [reflexivity|].
  destruct l as [|x l]; [rewrite !skipn_nil; reflexivity|]. cbn. apply IH.
Qed.
