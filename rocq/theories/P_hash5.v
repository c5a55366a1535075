(** SHA-3. *)
From Verif Require Import Bytes M_hash S_hash P_bytes P_aes P_hash1 P_hash2 P_hash3 P_hash4.
From Coq Require Import Init.Byte List ZArith Bool Lia.
Import ListNotations.
Open Scope Z_scope.

(** ** The state as a list of 25 lanes *)
Definition pack (l : list Z) : bytes := concat (map (le_bytes 8) l).
Lemma pack_length l : length (pack l) = (8 * length l)%nat.
Proof. unfold pack. induction l as [|x l IH]; [reflexivity|]. cbn [map concat length]. rewrite app_length, IH, le_bytes_length. lia. Qed.
Lemma pack_split l i : (i < length l)%nat -> exists a b, l = a ++ nth i l 0 :: b /\ length a = i.
Proof.
  intros L. exists (firstn i l), (skipn (S i) l). split; [|rewrite firstn_length; lia].
  revert i L. induction l as [|x l IH]; intros i L; [cbn in L; lia|]. destruct i as [|i]; [reflexivity|]. cbn [firstn nth skipn app]. f_equal. apply IH. cbn in L; lia.
Qed.
Lemma pack_app a b : pack (a ++ b) = pack a ++ pack b.
Proof. unfold pack. now rewrite map_app, concat_app. Qed.
Lemma pack_cons x l : pack (x :: l) = le_bytes 8 x ++ pack l.
Proof. reflexivity. Qed.
Lemma upd_app (a : list Z) x b u : upd (a ++ x :: b) (length a) u = a ++ u :: b.
Proof. induction a as [|y a IH]; [reflexivity|]. cbn. now rewrite IH. Qed.
Lemma skip_pack a b n : n = length a -> skipn (8 * n) (pack (a ++ b)) = pack b.
Proof. intros ->. rewrite pack_app, <- pack_length, skipn_app, skipn_all, Nat.sub_diag. reflexivity. Qed.
Lemma first_lane x l : firstn 8 (pack (x :: l)) = le_bytes 8 x.
Proof. rewrite pack_cons, firstn_app, le_bytes_length, Nat.sub_diag. rewrite firstn_O, app_nil_r. apply firstn_all2. rewrite le_bytes_length. lia. Qed.
Lemma load_le s i : load64 s i = le (map (fun k => nth (8 * i + k) s x00) (seq 0 8)).
Proof.
  unfold load64. cbn [fold_left seq map le]. pose (b := fun k => bv (nth (8 * i + k) s x00)).
  change (bv (nth (8 * i + 0) s x00)) with (b 0%nat). change (bv (nth (8 * i + 1) s x00)) with (b 1%nat). change (bv (nth (8 * i + 2) s x00)) with (b 2%nat). change (bv (nth (8 * i + 3) s x00)) with (b 3%nat). change (bv (nth (8 * i + 4) s x00)) with (b 4%nat). change (bv (nth (8 * i + 5) s x00)) with (b 5%nat). change (bv (nth (8 * i + 6) s x00)) with (b 6%nat). change (bv (nth (8 * i + 7) s x00)) with (b 7%nat).
  assert (R : forall k, 0 <= b k < 256) by (intros k; apply bv_range).
  assert (S : forall u c k, 0 <= u < 2 ^ k -> 0 <= k <= 56 -> 0 <= c < 256 -> Z.lor (u64 (Z.shiftl u 8)) c = c + 256 * u /\ 0 <= c + 256 * u < 2 ^ (k + 8)).
  { intros u c k U K C. rewrite u64_mod. rewrite Z.mod_small.
    - rewrite Z.lor_comm, lor_app by lia. rewrite Z.pow_add_r by lia. change (2 ^ 8) with 256. split; lia.
    - rewrite Z.shiftl_mul_pow2 by lia. assert (2 ^ k <= 2 ^ 56) by (apply Z.pow_le_mono_r; lia). lia. }
  destruct (S 0 (b 7%nat) 0) as [-> H1]; auto; try lia.
  destruct (S _ (b 6%nat) _ H1) as [-> H2]; auto; try lia.
  destruct (S _ (b 5%nat) _ H2) as [-> H3]; auto; try lia.
  destruct (S _ (b 4%nat) _ H3) as [-> H4]; auto; try lia.
  destruct (S _ (b 3%nat) _ H4) as [-> H5]; auto; try lia.
  destruct (S _ (b 2%nat) _ H5) as [-> H6]; auto; try lia.
  destruct (S _ (b 1%nat) _ H6) as [-> H7]; auto; try lia.
  destruct (S _ (b 0%nat) _ H7) as [-> H8]; auto; try lia.
Qed.
Lemma nth_seq8 (s : bytes) i : (8 * i + 8 <= length s)%nat -> map (fun k => nth (8 * i + k) s x00) (seq 0 8) = firstn 8 (skipn (8 * i) s).
Proof.
  intros L. apply (nth_ext _ _ x00 x00).
  - rewrite map_length, seq_length, firstn_length, skipn_length. lia.
  - intros k K. rewrite map_length, seq_length in K. rewrite (nth_indep _ x00 (nth (8 * i + 0) s x00)) by (rewrite map_length, seq_length; auto).
    rewrite (map_nth (fun k => nth (8 * i + k) s x00) (seq 0 8) 0%nat k). rewrite seq_nth by auto. cbn [plus].
    rewrite nth_firstn_lt by lia. rewrite nth_skipn. reflexivity.
Qed.
Definition words25 (l : list Z) : Prop := length l = 25%nat /\ Forall (word 64) l.
Lemma load_pack l i : words25 l -> (i < 25)%nat -> load64 (pack l) i = wnth l i.
Proof.
  intros [L F] I. rewrite load_le, nth_seq8 by (rewrite pack_length; lia).
  destruct (pack_split l i ltac:(lia)) as (a & b & E & A). unfold wnth. set (x := nth i l 0) in *. rewrite E. rewrite skip_pack by auto. rewrite first_lane, le_le_bytes.
  apply Z.mod_small. change (256 ^ Z.of_nat 8) with (2 ^ 64). rewrite Forall_forall in F. apply F. rewrite E. apply in_or_app. right. now left.
Qed.
Lemma put_pack a x b d n : n = length a -> length d = 8%nat -> put (pack (a ++ x :: b)) (8 * n) d = pack a ++ d ++ pack b.
Proof.
  intros -> D. unfold put. rewrite D. rewrite pack_app at 1. rewrite <- (pack_length a). rewrite firstn_app, firstn_all, Nat.sub_diag. rewrite firstn_O, app_nil_r.
  do 2 f_equal. change (a ++ x :: b) with (a ++ [x] ++ b). rewrite app_assoc. rewrite pack_length. replace (8 * length a + 8)%nat with (8 * length (a ++ [x]))%nat by (rewrite app_length; cbn [length]; lia). apply skip_pack. reflexivity.
Qed.
Lemma store_pack l i u : length l = 25%nat -> (i < 25)%nat -> store64 (pack l) i u = pack (upd l i u).
Proof.
  intros L I. destruct (pack_split l i ltac:(lia)) as (a & b & E & A). rewrite E. unfold store64. rewrite put_pack by (auto; apply le_bytes_length).
  rewrite <- A, upd_app, pack_app, pack_cons. reflexivity.
Qed.
Definition xorb8 (a b : bytes) : bytes := map (fun p => zb (Z.lxor (bv (fst p)) (bv (snd p)))) (combine a b).
Lemma xor_le_bytes n : forall x y, xorb8 (le_bytes n x) (le_bytes n y) = le_bytes n (Z.lxor x y).
Proof.
  induction n as [|n IH]; intros x y; [reflexivity|]. unfold xorb8 in *. cbn [le_bytes combine map fst snd]. rewrite IH, Z.shiftr_lxor. f_equal.
  apply zb_eq_mod. rewrite !bv_zb. change 256 with (2 ^ 8). rewrite <- !Z.land_ones by lia. apply Z.bits_inj'. intros k K.
  rewrite !Z.land_spec, !Z.lxor_spec, !Z.land_spec. destruct (Z.testbit x k), (Z.testbit y k), (Z.testbit (Z.ones 8) k); reflexivity.
Qed.
Lemma xor_pack l i u : length l = 25%nat -> (i < 25)%nat -> xor64 (pack l) i u = pack (upd l i (Z.lxor (wnth l i) u)).
Proof.
  intros L I. destruct (pack_split l i ltac:(lia)) as (a & b & E & A). unfold wnth. set (x := nth i l 0) in *. rewrite E. unfold xor64.
  rewrite skip_pack, first_lane by auto. fold (xorb8 (le_bytes 8 x) (le_bytes 8 u)). rewrite xor_le_bytes. rewrite put_pack by (auto; apply le_bytes_length).
  rewrite <- A, upd_app, pack_app, pack_cons. reflexivity.
Qed.
Lemma fold_sim {X} (f : bytes -> X -> bytes) (g : list Z -> X -> list Z) (P : list Z -> Prop) xs :
  (forall l x, In x xs -> P l -> f (pack l) x = pack (g l x) /\ P (g l x)) ->
  forall l, P l -> fold_left f xs (pack l) = pack (fold_left g xs l) /\ P (fold_left g xs l).
Proof.
  induction xs as [|x xs IH]; intros H l L; [split; auto|]. cbn [fold_left]. destruct (H l x) as [E E']; [now left|auto|]. rewrite E. apply IH; auto.
  intros l' x' I. apply H. now right.
Qed.
Lemma upd_words l i u : words25 l -> word 64 u -> words25 (upd l i u).
Proof.
  intros [L F] U. split; [now rewrite upd_length|]. clear L. revert i. induction F as [|x l X F IH]; intros i; [constructor|]. destruct i; constructor; auto.
Qed.
Lemma in_five x : In x five -> (x < 5)%nat. Proof. cbn. lia. Qed.
Lemma lane_lt x y : In x five -> In y five -> (lane x y < 25)%nat.
Proof. intros X Y. apply in_five in X. apply in_five in Y. unfold lane. lia. Qed.
Lemma wnth_word l i : words25 l -> word 64 (wnth l i).
Proof. intros [_ F]. apply words_nth; auto. lia. Qed.

(** ** The steps on lanes *)
Definition theta_l (l : list Z) : list Z :=
  let C := map (fun x => Z.lxor (Z.lxor (Z.lxor (Z.lxor (wnth l (lane x 0)) (wnth l (lane x 1))) (wnth l (lane x 2))) (wnth l (lane x 3))) (wnth l (lane x 4))) five in
  fold_left (fun l x =>
    let D := Z.lxor (wnth C ((x + 4) mod 5)) (rotl 64 1 (wnth C ((x + 1) mod 5))) in
    fold_left (fun l y => upd l (lane x y) (Z.lxor (wnth l (lane x y)) D)) five l) five l.
Lemma ROL_eq a r : 0 <= r <= 64 -> word 64 a -> ROL64 a r = rotl 64 r a.
Proof. intros R A. unfold ROL64. rewrite u64_mod. apply rotl_lxor; auto. Qed.
Lemma theta_pack l : words25 l -> theta (pack l) = pack (theta_l l) /\ words25 (theta_l l).
Proof.
  intros W. unfold theta, theta_l. cbv zeta.
  assert (CE : map (fun x => Z.lxor (Z.lxor (Z.lxor (Z.lxor (readLane (pack l) x 0) (readLane (pack l) x 1)) (readLane (pack l) x 2)) (readLane (pack l) x 3)) (readLane (pack l) x 4)) five =
    map (fun x => Z.lxor (Z.lxor (Z.lxor (Z.lxor (wnth l (lane x 0)) (wnth l (lane x 1))) (wnth l (lane x 2))) (wnth l (lane x 3))) (wnth l (lane x 4))) five).
  { apply map_ext_in. intros x X. unfold readLane. rewrite !load_pack by (auto; apply lane_lt; auto; cbn; tauto). reflexivity. }
  rewrite CE. set (C := map _ five). assert (CW : forall i, word 64 (wnth C i)).
  { intros i. apply words_nth; [lia|]. unfold C. rewrite Forall_map, Forall_forall. intros x _. repeat apply word_lxor; try lia; apply wnth_word; auto. }
  clearbody C. apply (fold_sim _ _ words25); auto. intros l1 x X W1. rewrite ROL_eq by (auto; lia).
  set (D := Z.lxor _ _). assert (DW : word 64 D) by (apply word_lxor; auto; try lia; apply word_rotl; auto; lia). clearbody D.
  apply (fold_sim _ _ words25); auto. intros l2 y Y W2. unfold XORLane. split.
  - apply xor_pack; [apply W2|apply lane_lt; auto]. - apply upd_words; auto. apply word_lxor; auto; try lia. apply wnth_word; auto.
Qed.
Fixpoint rho_pi_l (n t x y : nat) (current : Z) (l : list Z) : list Z :=
  match n with
  | O => l
  | S n =>
      let r := (((t + 1) * (t + 2) / 2) mod 64)%nat in
      let Y := ((2 * x + 3 * y) mod 5)%nat in
      rho_pi_l n (S t) y Y (wnth l (lane y Y)) (upd l (lane y Y) (rotl 64 (Z.of_nat r) current))
  end.
Lemma rho_pack n : forall t x y c l, words25 l -> (y < 5)%nat -> word 64 c -> rho_pi n t x y c (pack l) = pack (rho_pi_l n t x y c l) /\ words25 (rho_pi_l n t x y c l).
Proof.
  induction n as [|n IH]; intros t x y c l W Y C; [split; auto|]. cbn [rho_pi rho_pi_l]. cbv zeta.
  pose proof (Nat.mod_upper_bound (2 * x + 3 * y) 5 ltac:(lia)) as B. pose proof (Nat.mod_upper_bound ((t + 1) * (t + 2) / 2) 64 ltac:(lia)) as R.
  set (Y' := ((2 * x + 3 * y) mod 5)%nat) in *. set (r := (((t + 1) * (t + 2) / 2) mod 64)%nat) in *.
  unfold readLane, writeLane. rewrite load_pack by (auto; unfold lane; lia). rewrite ROL_eq by (auto; lia). rewrite store_pack by (try apply W; unfold lane; lia).
  apply IH; auto. - apply upd_words; auto. apply word_rotl; auto; lia. - apply wnth_word; auto.
Qed.
Definition chi_l (l : list Z) : list Z :=
  fold_left (fun l y =>
    let temp := map (fun x => wnth l (lane x y)) five in
    fold_left (fun l x =>
      upd l (lane x y) (Z.lxor (wnth temp x) (Z.land (wnot 64 (wnth temp ((x + 1) mod 5))) (wnth temp ((x + 2) mod 5))))) five l) five l.
Lemma chi_pack l : words25 l -> chi (pack l) = pack (chi_l l) /\ words25 (chi_l l).
Proof.
  intros W. unfold chi, chi_l. apply (fold_sim _ _ words25); auto. intros l1 y Y W1. cbv zeta.
  assert (TE : map (fun x => readLane (pack l1) x y) five = map (fun x => wnth l1 (lane x y)) five).
  { apply map_ext_in. intros x X. apply load_pack; auto. apply lane_lt; auto. }
  rewrite TE. set (temp := map _ five). assert (TW : forall i, word 64 (wnth temp i)).
  { intros i. apply words_nth; [lia|]. unfold temp. rewrite Forall_map, Forall_forall. intros x _. apply wnth_word; auto. }
  clearbody temp. apply (fold_sim _ _ words25); auto. intros l2 x X W2. unfold writeLane. rewrite u64_mod, lnot_mod by (auto; lia). split.
  - apply store_pack; [apply W2|apply lane_lt; auto]. - apply upd_words; auto. apply word_lxor; auto; try lia. apply word_land; auto; lia.
Qed.
(** The constant of a round, and the next state of the register *)
Definition iota_c (r : Z) : Z * Z :=
  fold_left (fun q j => let '(z, r) := q in let '(b, r) := LFSR86540 r in (if b : bool then Z.lxor z (Z.shiftl 1 (Z.shiftl 1 j - 1)) else z, r)) [0; 1; 2; 3; 4; 5; 6] (0, r).
Lemma iota_pack l r : words25 l -> word 64 (fst (iota_c r)) -> iota (pack l) r = (pack (upd l 0 (Z.lxor (wnth l 0) (fst (iota_c r)))), snd (iota_c r)).
Proof.
  intros W _. unfold iota, iota_c.
  assert (G : forall js z r, fold_left (fun p j => let '(s, l) := p in let '(b, l) := LFSR86540 l in
    (if b : bool then XORLane s 0 0 (Z.shiftl 1 (Z.shiftl 1 j - 1)) else s, l)) js (pack (upd l 0 (Z.lxor (wnth l 0) z)), r) =
    let q := fold_left (fun q j => let '(z, r) := q in let '(b, r) := LFSR86540 r in (if b : bool then Z.lxor z (Z.shiftl 1 (Z.shiftl 1 j - 1)) else z, r)) js (z, r) in
    (pack (upd l 0 (Z.lxor (wnth l 0) (fst q))), snd q)).
  { induction js as [|j js IH]; intros z r0; [reflexivity|]. cbn [fold_left]. destruct (LFSR86540 r0) as [b r1]. destruct b; [|apply IH].
    unfold XORLane. rewrite xor_pack; [|rewrite upd_length; apply W|cbn; lia]. change (lane 0 0) with 0%nat. rewrite upd_nth by (destruct W as [WL _]; rewrite WL; lia). cbn [Nat.eqb].
    rewrite Z.lxor_assoc. rewrite <- IH. do 3 f_equal. destruct W as [WL _]. destruct l; reflexivity. }
  specialize (G [0; 1; 2; 3; 4; 5; 6] 0 r). rewrite Z.lxor_0_r in G. replace (upd l 0 (wnth l 0)) with l in G by (destruct l; reflexivity). exact G.
Qed.

(** ** Lanes and arrays *)
Definition list_of (A : array) : list Z := map (fun i => A (i mod 5)%nat (i / 5)%nat) (seq 0 25).
Definition warray (A : array) : Prop := forall x y, word 64 (A x y).
Lemma list_words A : warray A -> words25 (list_of A).
Proof. intros W. split; [reflexivity|]. unfold list_of. rewrite Forall_map, Forall_forall. intros i _. apply W. Qed.
Lemma bytes_of_pack A : bytes_of A = pack (list_of A).
Proof. unfold bytes_of, pack, list_of. rewrite map_map. f_equal. apply map_ext. intros i. symmetry. apply le_bytes_to. Qed.
Ltac cells := cbn [list_of map seq Nat.modulo Nat.divmod Nat.div Nat.sub Nat.add Nat.mul fst snd five fold_left lane wnth nth upd].
Lemma theta_list A : theta_l (list_of A) = list_of (k_theta A).
Proof. unfold theta_l, list_of, k_theta, prev, next, wnth, lane, five. cells. rewrite !Z.lxor_assoc. reflexivity. Qed.

Lemma rotl_0 x : word 64 x -> rotl 64 0 x = x.
Proof. intros X. unfold rotl. rewrite Z.pow_0_r, Z.mul_1_r, Z.mod_small, Z.div_small; unfold word in X; try lia; rewrite ?Z.sub_0_r; lia. Qed.
Lemma rho_list A : warray A -> rho_pi_l 24 0 1 0 (wnth (list_of A) (lane 1 0)) (list_of A) = list_of (k_pi (k_rho A)).
Proof.
  intros W. pose proof (rotl_0 (A 0%nat 0%nat) (W _ _)) as R0.
  unfold list_of, wnth, lane. cells. unfold k_pi, k_rho, offsets. cells. rewrite R0. reflexivity.
Qed.
Lemma chi_list A : chi_l (list_of A) = list_of (k_chi A).
Proof. unfold chi_l, list_of, k_chi, next, wnth, lane, five. cells. reflexivity. Qed.
Lemma iota_list A i : upd (list_of A) 0 (Z.lxor (wnth (list_of A) 0) (RC i)) = list_of (k_iota i A).
Proof. unfold list_of, k_iota, wnth. generalize (RC i). intros c. cells. cbn [Nat.eqb andb]. reflexivity. Qed.
Lemma theta_w A : warray A -> warray (k_theta A).
Proof.
  intros W x y. unfold k_theta. cbv zeta. assert (C : forall x, word 64 (Z.lxor (A x 0%nat) (Z.lxor (A x 1%nat) (Z.lxor (A x 2%nat) (Z.lxor (A x 3%nat) (A x 4%nat)))))) by (intros; repeat apply word_lxor; try lia; apply W).
  apply word_lxor; [lia|apply W|]. apply word_lxor; [lia|apply C|]. apply word_rotl; [lia|apply C].
Qed.
Lemma offsets_le x y : 0 <= nth x (nth y offsets []) 0 <= 64.
Proof.
  unfold offsets. do 5 (destruct y as [|y]; [cbn [nth]; do 5 (destruct x as [|x]; [cbn [nth]; lia|]); cbn [nth]; destruct x; lia|]).
  cbn [nth]. destruct y, x; cbn [nth]; lia.
Qed.
Lemma rho_w A : warray A -> warray (k_rho A).
Proof. intros W x y. apply word_rotl; [apply offsets_le|apply W]. Qed.
Lemma pi_w A : warray A -> warray (k_pi A).
Proof. intros W x y. apply W. Qed.
Lemma chi_w A : warray A -> warray (k_chi A).
Proof. intros W x y. unfold k_chi. apply word_lxor; [lia|apply W|]. apply word_land; [lia|apply W]. Qed.
Definition reg_at (i : nat) : Z := Nat.iter i (fun r => snd (iota_c r)) 1.
Lemma RC_ok i : (i < 24)%nat -> fst (iota_c (reg_at i)) = RC i /\ word 64 (RC i).
Proof.
  intros I. assert (H : forallb (fun i => (fst (iota_c (reg_at i)) =? RC i) && (0 <=? RC i) && (RC i <? 2 ^ 64)) (seq 0 24) = true) by (vm_compute; reflexivity).
  rewrite forallb_forall in H. specialize (H i). rewrite !andb_true_iff, Z.eqb_eq, Z.leb_le, Z.ltb_lt in H.
  assert (J : In i (seq 0 24)) by (apply in_seq; lia). specialize (H J). unfold word. tauto.
Qed.
Lemma iota_w A i : (i < 24)%nat -> warray A -> warray (k_iota i A).
Proof. intros I W x y. unfold k_iota. destruct (_ && _)%nat; [|apply W]. apply word_lxor; [lia|apply W|apply RC_ok; auto]. Qed.
Lemma rounds_eq n : forall i A, warray A -> (i + n <= 24)%nat -> keccak_rounds n (pack (list_of A)) (reg_at i) = pack (list_of (fold_left k_round (seq i n) A)).
Proof.
  induction n as [|n IH]; intros i A W L; [reflexivity|]. cbn [keccak_rounds seq fold_left]. cbv zeta.
  destruct (theta_pack (list_of A) (list_words A W)) as [-> T]. rewrite theta_list in *. pose proof (theta_w A W) as W1.
  unfold readLane. rewrite load_pack by (auto; cbn; lia).
  destruct (rho_pack 24 0 1 0 (wnth (list_of (k_theta A)) (lane 1 0)) (list_of (k_theta A))) as [-> R]; auto; [lia|apply wnth_word; auto|]. rewrite rho_list in * by auto.
  destruct (chi_pack _ R) as [-> C]. rewrite chi_list in *. destruct (RC_ok i ltac:(lia)) as [E EW].
  rewrite iota_pack by (auto; rewrite E; auto). rewrite E, iota_list.
  change (snd (iota_c (reg_at i))) with (reg_at (S i)). apply IH; [|lia].
  apply iota_w; [lia|]. apply chi_w, pi_w, rho_w, W1.
Qed.
Lemma chunks (s : bytes) n : concat (map (fun i => firstn 8 (skipn (8 * i) s)) (seq 0 n)) = firstn (8 * n) s.
Proof.
  induction n as [|n IH]; [reflexivity|]. rewrite seq_S, map_app, concat_app, IH. cbn [map concat plus]. rewrite app_nil_r.
  replace (8 * S n)%nat with (8 * n + 8)%nat by lia. rewrite <- (firstn_skipn (8 * n) s) at 3. rewrite firstn_app.
  rewrite firstn_firstn, Nat.min_r by lia. rewrite firstn_length. destruct (Nat.le_ge_cases (length s) (8 * n)) as [L|L].
  - rewrite (skipn_all2 s) by auto. now rewrite !firstn_nil.
  - rewrite Nat.min_l by auto. do 2 f_equal. lia.
Qed.
Lemma array_word s : warray (array_of s).
Proof.
  intros x y. unfold array_of. rewrite <- le_from. set (c := firstn 8 _). assert (length c <= 8)%nat by (unfold c; rewrite firstn_length; lia).
  pose proof (le_range c) as R. unfold word. assert (256 ^ zlen c <= 256 ^ 8) by (apply Z.pow_le_mono_r; unfold zlen; lia). change (2 ^ 64) with (256 ^ 8). lia.
Qed.
Lemma pack_array s : length s = 200%nat -> pack (list_of (array_of s)) = s.
Proof.
  intros L. unfold pack, list_of. rewrite map_map. transitivity (firstn (8 * 25) s); [|apply firstn_all2; lia]. rewrite <- chunks. f_equal. apply map_ext_in.
  intros i I. apply in_seq in I. unfold array_of. rewrite <- (Nat.div_mod i 5) by lia. rewrite <- le_from.
  rewrite <- (le_bytes_le (firstn 8 (skipn (8 * i) s))) at 2. f_equal. rewrite firstn_length, skipn_length. lia.
Qed.
Lemma permute_eq s : length s = 200%nat -> KeccakF1600_StatePermute s = keccak_p s.
Proof.
  intros L. unfold KeccakF1600_StatePermute, keccak_p. rewrite bytes_of_pack, <- (rounds_eq 24 0); [|apply array_word|lia].
  rewrite pack_array by auto. reflexivity.
Qed.
Lemma keccak_length s : length (keccak_p s) = 200%nat.
Proof. unfold keccak_p. rewrite bytes_of_pack, pack_length. reflexivity. Qed.

(** ** The sponge *)
Lemma xor_length a b : length a = length b -> length (xor_bytes a b) = length a.
Proof. intros L. unfold xor_bytes. rewrite map_length, combine_length. lia. Qed.
Lemma xor_app a b c d : length a = length c -> xor_bytes (a ++ b) (c ++ d) = xor_bytes a c ++ xor_bytes b d.
Proof.
  revert c. induction a as [|x a IH]; intros [|y c] L; try discriminate; [reflexivity|]. cbn [app]. unfold xor_bytes in *. cbn [combine map app]. f_equal. apply IH. cbn in L; lia.
Qed.
Lemma zx_comm a b : zb (Z.lxor (bv a) (bv b)) = zb (Z.lxor (bv b) (bv a)). Proof. now rewrite Z.lxor_comm. Qed.
Lemma xor_zeros s : xor_bytes s (repeat x00 (length s)) = s.
Proof. induction s as [|x s IH]; [reflexivity|]. unfold xor_bytes in *. cbn [length repeat combine map fst snd]. rewrite IH. change (bv x00) with 0. now rewrite Z.lxor_0_r, zb_bv. Qed.
Lemma xor_zeros_l s : xor_bytes (repeat x00 (length s)) s = s.
Proof. induction s as [|x s IH]; [reflexivity|]. unfold xor_bytes in *. cbn [length repeat combine map fst snd]. rewrite IH. change (bv x00) with 0. now rewrite Z.lxor_0_l, zb_bv. Qed.
Lemma bv_xor a b : bv (zb (Z.lxor (bv a) (bv b))) = Z.lxor (bv a) (bv b).
Proof. apply bv_zb_small. change (word 8 (Z.lxor (bv a) (bv b))). apply word_lxor; [lia|apply bv_range|apply bv_range]. Qed.
Lemma xor_assoc a : forall b c, length a = length b -> length b = length c -> xor_bytes (xor_bytes a b) c = xor_bytes a (xor_bytes b c).
Proof.
  induction a as [|x a IH]; intros [|y b] [|z c] L M; try discriminate; [reflexivity|]. unfold xor_bytes in *. cbn [combine map fst snd]. f_equal.
  - now rewrite !bv_xor, Z.lxor_assoc. - apply IH; cbn in L, M; lia.
Qed.
Lemma xor_in_eq s d : length s = 200%nat -> (length d <= 200)%nat -> xor_in s d = xor_bytes s (d ++ repeat x00 (200 - length d)).
Proof.
  intros L D. unfold xor_in. rewrite <- (firstn_skipn (length d) s) at 3. rewrite xor_app by (rewrite firstn_length; lia). unfold xor_bytes at 1. f_equal.
  replace (200 - length d)%nat with (length (skipn (length d) s)) by (rewrite skipn_length; lia). symmetry. apply xor_zeros.
Qed.
Lemma xor_at_eq s i b : length s = 200%nat -> (i < 200)%nat -> xor_at s i b = xor_bytes s (repeat x00 i ++ b :: repeat x00 (200 - S i)).
Proof.
  intros L I. unfold xor_at, put. replace (xor_bytes s) with (xor_bytes (firstn i s ++ skipn i s)) by (now rewrite firstn_skipn). rewrite xor_app by (rewrite firstn_length, repeat_length; lia).
  assert (F : length (firstn i s) = i) by (rewrite firstn_length; lia). replace (repeat x00 i) with (repeat x00 (length (firstn i s))) by (now rewrite F). rewrite xor_zeros. f_equal.
  assert (E : skipn i s = nth i s x00 :: skipn (S i) s).
  { clear -L I. rewrite <- L in I. clear L. revert i I. induction s as [|x s IH]; intros i I; [cbn in I; lia|]. destruct i as [|i]; [reflexivity|]. cbn [skipn nth]. apply IH. cbn in I. lia. }
  rewrite E. cbn [length]. rewrite Nat.add_1_r. unfold xor_bytes. cbn [combine map fst snd app]. f_equal. symmetry.
  replace (200 - S i)%nat with (length (skipn (S i) s)) by (rewrite skipn_length; lia). apply xor_zeros.
Qed.
Section Sponge.
Variable rate : nat.
Hypothesis R0 : (2 <= rate < 200)%nat.
Definition step3 (s p : bytes) : bytes := keccak_p (xor_bytes s (p ++ repeat x00 (200 - rate))).
Lemma absorb_eq fuel : forall s input, (length input < fuel)%nat -> length s = 200%nat ->
  exists k full tail s', input = full ++ tail /\ length full = (rate * k)%nat /\ (length tail < rate)%nat /\
    s' = fold_left step3 (cut rate full) s /\ length s' = 200%nat /\
    absorb fuel rate s input 0 = (xor_bytes s' (tail ++ repeat x00 (200 - length tail)), length tail).
Proof.
  induction fuel as [|fuel IH]; intros s input F L; [lia|]. cbn [absorb].
  assert (Z0 : xor_bytes s (repeat x00 200) = s) by (rewrite <- L; apply xor_zeros).
  destruct (Nat.ltb_spec 0 (length input)) as [P|P].
  - destruct (Nat.le_gt_cases rate (length input)) as [C|C].
    + rewrite Nat.min_r by auto. rewrite Nat.eqb_refl. cbv zeta. assert (FL : length (firstn rate input) = rate) by (rewrite firstn_length; lia).
      rewrite xor_in_eq, FL by lia. rewrite permute_eq. 2: { rewrite xor_length; auto. rewrite app_length, repeat_length, FL. lia. }
      fold (step3 s (firstn rate input)).
      destruct (IH (step3 s (firstn rate input)) (skipn rate input)) as (k & full & tail & s' & E1 & E2 & E3 & E4 & E5 & E6); [rewrite skipn_length; lia|apply keccak_length|].
      exists (S k), (firstn rate input ++ full), tail, s'. split; [now rewrite <- app_assoc, <- E1, firstn_skipn|]. split; [rewrite app_length, FL, E2; lia|]. split; [auto|]. split; [|split; auto].
      rewrite cut_cons by (auto; lia). cbn [fold_left]. exact E4.
    + rewrite Nat.min_l by lia. destruct (Nat.eqb_spec (length input) rate); [lia|]. cbv zeta. rewrite firstn_all, skipn_all.
      exists 0%nat, [], input, s. split; [reflexivity|]. split; [cbn; lia|]. split; [auto|]. split; [reflexivity|]. split; [auto|].
      rewrite xor_in_eq by lia. destruct fuel as [|fuel]; [lia|]. reflexivity.
  - destruct input as [|x input]; [|cbn in P; lia]. exists 0%nat, [], [], s. split; [reflexivity|]. split; [cbn; lia|]. split; [cbn; lia|]. split; [reflexivity|]. split; [auto|].
    cbn [length app Nat.sub]. now rewrite Z0.
Qed.
Lemma repeat_split {A} (x : A) a b : repeat x (a + b) = repeat x a ++ repeat x b. Proof. apply repeat_app. Qed.
Lemma sponge_eq n m : (n <= rate)%nat -> Keccak rate m x06 n = sponge rate n m.
Proof.
  intros N. unfold Keccak, sponge. destruct (absorb_eq (S (length m)) (zeros 200) m) as (k & full & tail & s' & E1 & E2 & E3 & E4 & E5 & E6); [lia|apply repeat_length|].
  rewrite E6. change (negb (Z.land (bv x06) 128 =? 0)) with false. cbn [andb]. cbv zeta.
  set (t := length tail) in *. assert (TL : length (tail ++ repeat x00 (200 - t)) = 200%nat) by (rewrite app_length, repeat_length; fold t; lia).
  assert (L1 : length (xor_bytes s' (tail ++ repeat x00 (200 - t))) = 200%nat) by (rewrite xor_length; lia).
  rewrite (xor_at_eq _ t) by lia.
  assert (L2 : forall i b, (i < 200)%nat -> length (repeat x00 i ++ b :: repeat x00 (200 - S i)) = 200%nat) by (intros i b I; rewrite app_length; cbn [length]; rewrite !repeat_length; lia).
  rewrite xor_at_eq by (try rewrite xor_length; rewrite ?L2, ?L1; lia).
  rewrite !xor_assoc by (rewrite ?xor_length; rewrite ?L2, ?TL; lia).
  assert (Q : fold_left (fun s p => keccak_p (xor_bytes s (p ++ repeat x00 (200 - rate)))) (cut rate (pad3 rate m)) (repeat x00 200) =
    keccak_p (xor_bytes s' (xor_bytes (tail ++ repeat x00 (200 - t)) (xor_bytes (repeat x00 t ++ x06 :: repeat x00 (200 - S t)) (repeat x00 (rate - 1) ++ x80 :: repeat x00 (200 - S (rate - 1))))))).
  { assert (M : (length m mod rate = t)%nat).
    { rewrite E1, app_length, E2. fold t. rewrite Nat.add_comm, Nat.mul_comm, Nat.mod_add by lia. apply Nat.mod_small; auto. }
    assert (LAST : exists last, pad3 rate m = full ++ last /\ length last = rate /\
      xor_bytes (tail ++ repeat x00 (200 - t)) (xor_bytes (repeat x00 t ++ x06 :: repeat x00 (200 - S t)) (repeat x00 (rate - 1) ++ x80 :: repeat x00 (200 - S (rate - 1)))) = last ++ repeat x00 (200 - rate)).
    { destruct (Nat.eq_dec t (rate - 1)) as [T|T].
      - exists (tail ++ [x86]). split; [|split].
        + unfold pad3. rewrite M, T. replace (rate - (rate - 1))%nat with 1%nat by lia. rewrite E1, <- app_assoc. reflexivity.
        + rewrite app_length. cbn [length]. fold t. lia.
        + rewrite T. rewrite xor_app by reflexivity. 
          assert (Z1 : xor_bytes (repeat x00 (rate - 1)) (repeat x00 (rate - 1)) = repeat x00 (rate - 1)) by (rewrite <- (repeat_length x00 (rate - 1)) at 2; apply xor_zeros). rewrite Z1.
          rewrite xor_app by (rewrite repeat_length; fold t; auto). rewrite <- T. fold t. rewrite xor_zeros. rewrite <- app_assoc. f_equal.
          replace (200 - S t)%nat with (200 - rate)%nat by lia. unfold xor_bytes at 2. cbn [combine map fst snd]. fold (xor_bytes (repeat x00 (200 - rate)) (repeat x00 (200 - rate))).
          assert (Z2 : xor_bytes (repeat x00 (200 - rate)) (repeat x00 (200 - rate)) = repeat x00 (200 - rate)) by (rewrite <- (repeat_length x00 (200 - rate)) at 2; apply xor_zeros). rewrite Z2.
          replace (200 - t)%nat with (S (200 - rate)) by lia. cbn [repeat]. unfold xor_bytes. cbn [combine map fst snd]. fold (xor_bytes (repeat x00 (200 - rate)) (repeat x00 (200 - rate))). rewrite Z2. reflexivity.
      - exists (tail ++ [x06] ++ repeat x00 (rate - t - 2) ++ [x80]). split; [|split].
        + unfold pad3. rewrite M. destruct (rate - t)%nat as [|[|q]] eqn:Q; [lia|lia|]. rewrite E1, <- app_assoc. cbn [Nat.sub]. rewrite Nat.sub_0_r. reflexivity.
        + rewrite !app_length. cbn [length]. rewrite repeat_length. fold t. lia.
        + assert (ZZ : forall j, xor_bytes (repeat x00 j) (repeat x00 j) = repeat x00 j) by (intros j; rewrite <- (repeat_length x00 j) at 2; apply xor_zeros).
          replace (rate - 1)%nat with (t + S (rate - t - 2))%nat by lia. rewrite repeat_split, <- app_assoc. rewrite xor_app by reflexivity. rewrite ZZ. cbn [repeat app].
          assert (Y : xor_bytes (x06 :: repeat x00 (200 - S t)) (x00 :: repeat x00 (rate - t - 2) ++ x80 :: repeat x00 (200 - S (t + S (rate - t - 2)))) =
                  x06 :: repeat x00 (rate - t - 2) ++ x80 :: repeat x00 (200 - rate)).
          { replace (200 - S t)%nat with (rate - t - 2 + S (200 - rate))%nat by lia. rewrite repeat_split. replace (200 - S (t + S (rate - t - 2)))%nat with (200 - rate)%nat by lia.
            change (x06 :: repeat x00 (rate - t - 2) ++ repeat x00 (S (200 - rate))) with ([x06] ++ repeat x00 (rate - t - 2) ++ repeat x00 (S (200 - rate))).
            change (x00 :: repeat x00 (rate - t - 2) ++ x80 :: repeat x00 (200 - rate)) with ([x00] ++ repeat x00 (rate - t - 2) ++ x80 :: repeat x00 (200 - rate)).
            rewrite xor_app by reflexivity. rewrite xor_app by reflexivity. rewrite ZZ. cbn [repeat]. unfold xor_bytes at 2. cbn [combine map]. fold (xor_bytes (repeat x00 (200 - rate)) (repeat x00 (200 - rate))). rewrite ZZ. reflexivity. }
          rewrite Y. rewrite xor_app by (rewrite repeat_length; reflexivity). fold t. unfold t at 2. rewrite xor_zeros.
          set (rest := x06 :: repeat x00 (rate - t - 2) ++ x80 :: repeat x00 (200 - rate)). replace (200 - length tail)%nat with (length rest) by (unfold rest; cbn [length]; rewrite app_length; cbn [length]; rewrite !repeat_length; lia).
          rewrite xor_zeros_l. unfold rest. rewrite <- !app_assoc. cbn [app]. rewrite <- app_assoc. reflexivity. }
    destruct LAST as (last & P1 & P2 & P3). rewrite P3, P1. rewrite (cut_app rate ltac:(lia) k) by auto. rewrite fold_left_app. fold step3.
    change (repeat x00 200) with (zeros 200). rewrite <- E4. rewrite cut_one by (auto; lia). reflexivity. }
  rewrite Q, permute_eq. 2: { assert (X200 : forall a b, length a = 200%nat -> length b = 200%nat -> length (xor_bytes a b) = 200%nat) by (intros; rewrite xor_length; lia). repeat apply X200; auto; apply L2; lia. }
  set (z := keccak_p _). cbn [squeeze]. destruct (Nat.ltb_spec 0 n); [|replace n with 0%nat by lia; reflexivity].
  rewrite Nat.min_l, Nat.sub_diag by auto. cbn [Nat.ltb Nat.leb]. apply app_nil_r.
Qed.
End Sponge.
Lemma sha3_256_correct m : zlen m < 2 ^ 32 -> sha3_256 m = SHA3_256 m.
Proof. intros L. unfold sha3_256. rewrite ztake_all by (apply Z.mod_small; unfold zlen in *; lia). apply sponge_eq; vm_compute; lia. Qed.
Lemma sha3_512_correct m : zlen m < 2 ^ 32 -> sha3_512 m = SHA3_512 m.
Proof. intros L. unfold sha3_512. rewrite ztake_all by (apply Z.mod_small; unfold zlen in *; lia). apply sponge_eq; vm_compute; lia. Qed.
