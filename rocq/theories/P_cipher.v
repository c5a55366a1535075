(** Proofs about the cipher layer. *)
From Verif Require Import Bytes M_util M_codec M_aes M_cipher S_aes S_cipher S_codec P_bytes P_codec P_aes.
From Coq Require Import Init.Byte List ZArith Bool Lia Arith.
Import ListNotations.
Open Scope Z_scope.

(** ** XOR *)
Lemma xor_length a b : length a = length b -> length (xor_bytes a b) = length a.
Proof. intro L. unfold xor_bytes. rewrite map_length, combine_length. lia. Qed.
Lemma xor_nil_r a : xor_bytes a [] = [].
Proof. destruct a; reflexivity. Qed.
Lemma xor_cons x a y b : xor_bytes (x :: a) (y :: b) = zb (Z.lxor (bv x) (bv y)) :: xor_bytes a b.
Proof. reflexivity. Qed.
Lemma xor_comm a : forall b, xor_bytes a b = xor_bytes b a.
Proof.
  induction a as [|x a IH]; intros [|y b]; [reflexivity|reflexivity|apply xor_nil_r|].
  rewrite !xor_cons, Z.lxor_comm, IH. reflexivity.
Qed.
Lemma bv_zb_oct x : oct x -> bv (zb x) = x.
Proof. intro. rewrite bv_zb. apply Z.mod_small. assumption. Qed.
Lemma xor_xor a : forall b, length a = length b -> xor_bytes (xor_bytes a b) b = a.
Proof.
  induction a as [|x a IH]; intros [|y b] L; try discriminate; [reflexivity|].
  rewrite !xor_cons. rewrite bv_zb_oct by (apply oct_lxor; apply bv_oct).
  rewrite Z.lxor_assoc, Z.lxor_nilpotent, Z.lxor_0_r, zb_bv. f_equal. apply IH. cbn in L. lia.
Qed.
Lemma XOR_eq : XOR = xor_bytes. Proof. reflexivity. Qed.

(** ** Block lists *)
Definition b16 (b : bytes) : Prop := length b = 16%nat.
Lemma front_app p l : b16 p -> front (p ++ l) = p.
Proof. intro B. unfold front. rewrite <- B. rewrite firstn_app, firstn_all, Nat.sub_diag. cbn. apply app_nil_r. Qed.
Lemma rest_app p l : b16 p -> rest (p ++ l) = l.
Proof. intro B. unfold rest. rewrite <- B. rewrite skipn_app, skipn_all, Nat.sub_diag. reflexivity. Qed.
Lemma cut_exists n : forall l, length l = (16 * n)%nat -> exists P, cut P l /\ length P = n.
Proof.
  induction n as [|n IH]; intros l L.
  - destruct l; [|discriminate]. exists []. repeat split. constructor.
  - destruct (IH (rest l)) as (P & (P1 & P2) & P3); [unfold rest; rewrite skipn_length; lia|].
    exists (front l :: P). split; [split|cbn; lia].
    + cbn [concat]. rewrite P1. apply firstn_skipn.
    + constructor; [|assumption]. unfold front. rewrite firstn_length. lia.
Qed.
Lemma cut_length P l : cut P l -> length l = (16 * length P)%nat.
Proof.
  intros (<- & F). induction F as [|b P B F IH]; [reflexivity|]. cbn [concat length]. rewrite app_length, IH. unfold b16 in *. lia.
Qed.

(** ** Modes on block lists *)
Section Modes.
Variable E D : bytes -> bytes.
Hypothesis El : forall b, b16 b -> b16 (E b).
Hypothesis DE : forall b, b16 b -> D (E b) = b.

Fixpoint cbcB (iv : bytes) (P : list bytes) : list bytes :=
  match P with [] => [] | p :: P => let c := E (xor_bytes iv p) in c :: cbcB c P end.
Fixpoint cfbB (iv : bytes) (P : list bytes) : list bytes :=
  match P with [] => [] | p :: P => let c := xor_bytes (E iv) p in c :: cfbB c P end.
Fixpoint ofbO (iv : bytes) (P : list bytes) : list bytes :=
  match P with [] => [] | p :: P => E iv :: ofbO (E iv) P end.
Fixpoint ofbB (iv : bytes) (P : list bytes) : list bytes :=
  match P with [] => [] | p :: P => xor_bytes (E iv) p :: ofbB (E iv) P end.
Fixpoint ctrT (iv : bytes) (P : list bytes) : list bytes :=
  match P with [] => [] | p :: P => iv :: ctrT (inc_block iv) P end.
Fixpoint ctrB (iv : bytes) (P : list bytes) : list bytes :=
  match P with [] => [] | p :: P => xor_bytes (E iv) p :: ctrB (inc_block iv) P end.

Lemma ecb_blocks P : Forall b16 P -> forall f, ecb f (length P) (concat P) = concat (map f P).
Proof. intros F f. induction F as [|p P B F IH]; [reflexivity|]. cbn [length ecb concat map]. rewrite front_app, rest_app, IH by assumption. reflexivity. Qed.
Lemma cbc_blocks P : Forall b16 P -> forall iv, cbc_enc E (length P) iv (concat P) = concat (cbcB iv P).
Proof. intros F. induction F as [|p P B F IH]; intro iv; [reflexivity|]. cbn [length cbc_enc concat cbcB]. rewrite front_app, rest_app, IH by assumption. reflexivity. Qed.
Lemma cfb_blocks P : Forall b16 P -> forall iv, cfb_enc E (length P) iv (concat P) = concat (cfbB iv P).
Proof. intros F. induction F as [|p P B F IH]; intro iv; [reflexivity|]. cbn [length cfb_enc concat cfbB]. rewrite front_app, rest_app, IH by assumption. reflexivity. Qed.
Lemma ofb_blocks P : Forall b16 P -> forall iv, ofb E (length P) iv (concat P) = concat (ofbB iv P).
Proof. intros F. induction F as [|p P B F IH]; intro iv; [reflexivity|]. cbn [length ofb concat ofbB]. rewrite front_app, rest_app, IH by assumption. reflexivity. Qed.
Lemma ctr_blocks P : Forall b16 P -> forall iv, ctr E (length P) iv (concat P) = concat (ctrB iv P).
Proof. intros F. induction F as [|p P B F IH]; intro iv; [reflexivity|]. cbn [length ctr concat ctrB]. rewrite front_app, rest_app, IH by assumption. reflexivity. Qed.

Lemma inc_rev_length l : length (inc_rev l) = length l.
Proof. induction l as [|b l IH]; [reflexivity|]. cbn [inc_rev length]. destruct (bv _ =? 0); cbn; congruence. Qed.
Lemma inc_block_length l : length (inc_block l) = length l.
Proof. unfold inc_block. rewrite rev_length, inc_rev_length. apply rev_length. Qed.

Lemma xor16 a b : b16 a -> b16 b -> b16 (xor_bytes a b).
Proof. unfold b16. intros A B. rewrite xor_length; congruence. Qed.
Lemma len_cbc P : Forall b16 P -> forall iv, b16 iv -> Forall b16 (cbcB iv P) /\ length (cbcB iv P) = length P.
Proof.
  intros F. induction F as [|p P B F IH]; intros iv I; [split; [constructor|reflexivity]|]. cbn [cbcB].
  destruct (IH (E (xor_bytes iv p))) as (? & ?); [auto using xor16|]. split; [constructor; auto using xor16|cbn; congruence].
Qed.
Lemma len_cfb P : Forall b16 P -> forall iv, b16 iv -> Forall b16 (cfbB iv P) /\ length (cfbB iv P) = length P.
Proof.
  intros F. induction F as [|p P B F IH]; intros iv I; [split; [constructor|reflexivity]|]. cbn [cfbB].
  destruct (IH (xor_bytes (E iv) p)) as (? & ?); [auto using xor16|]. split; [constructor; auto using xor16|cbn; congruence].
Qed.
Lemma len_ofb P : Forall b16 P -> forall iv, b16 iv -> Forall b16 (ofbB iv P) /\ length (ofbB iv P) = length P.
Proof.
  intros F. induction F as [|p P B F IH]; intros iv I; [split; [constructor|reflexivity]|]. cbn [ofbB].
  destruct (IH (E iv)) as (? & ?); [auto using xor16|]. split; [constructor; auto using xor16|cbn; congruence].
Qed.
Lemma len_ctr P : Forall b16 P -> forall iv, b16 iv -> Forall b16 (ctrB iv P) /\ length (ctrB iv P) = length P.
Proof.
  intros F. induction F as [|p P B F IH]; intros iv I; [split; [constructor|reflexivity]|]. cbn [ctrB].
  destruct (IH (inc_block iv)) as (? & ?); [unfold b16; rewrite inc_block_length; assumption|]. split; [constructor; auto using xor16|cbn; congruence].
Qed.
Lemma len_ecb P : Forall b16 P -> Forall b16 (map E P) /\ length (map E P) = length P.
Proof. intro F. split; [|apply map_length]. induction F; constructor; auto. Qed.

(** Decryption undoes encryption. *)
Lemma dec_ecb P : Forall b16 P -> ecb D (length P) (concat (map E P)) = concat P.
Proof.
  intro F. destruct (len_ecb P F) as (F' & L). rewrite <- L, ecb_blocks by assumption. rewrite map_map. f_equal.
  rewrite <- (map_id P) at 2. apply map_ext_in. intros b I. apply DE. apply (proj1 (Forall_forall _ _) F). assumption.
Qed.
Lemma dec_cbc P : Forall b16 P -> forall iv, b16 iv -> cbc_dec D (length P) iv (concat (cbcB iv P)) = concat P.
Proof.
  intros F. induction F as [|p P B F IH]; intros iv I; [reflexivity|]. cbn [length cbcB concat cbc_dec].
  rewrite front_app, rest_app by auto using xor16. rewrite IH by auto using xor16. f_equal.
  rewrite DE by auto using xor16. rewrite (xor_comm iv p). apply xor_xor. unfold b16 in *. congruence.
Qed.
Lemma dec_cfb P : Forall b16 P -> forall iv, b16 iv -> cfb_dec E (length P) iv (concat (cfbB iv P)) = concat P.
Proof.
  intros F. induction F as [|p P B F IH]; intros iv I; [reflexivity|]. cbn [length cfbB concat cfb_dec].
  rewrite front_app, rest_app by auto using xor16. rewrite IH by auto using xor16. f_equal.
  rewrite xor_comm, (xor_comm (E iv)). apply xor_xor. pose proof (El iv I). unfold b16 in *. congruence.
Qed.
Lemma dec_ofb P : Forall b16 P -> forall iv, b16 iv -> ofb E (length P) iv (concat (ofbB iv P)) = concat P.
Proof.
  intros F. induction F as [|p P B F IH]; intros iv I; [reflexivity|]. cbn [length ofbB concat ofb].
  rewrite front_app, rest_app by auto using xor16. rewrite IH by auto. f_equal.
  rewrite xor_comm, (xor_comm (E iv)). apply xor_xor. pose proof (El iv I). unfold b16 in *. congruence.
Qed.
Lemma dec_ctr P : Forall b16 P -> forall iv, b16 iv -> ctr E (length P) iv (concat (ctrB iv P)) = concat P.
Proof.
  intros F. induction F as [|p P B F IH]; intros iv I; [reflexivity|]. cbn [length ctrB concat ctr].
  rewrite front_app, rest_app by auto using xor16. rewrite IH by (unfold b16; rewrite inc_block_length; assumption). f_equal.
  rewrite xor_comm, (xor_comm (E iv)). apply xor_xor. pose proof (El iv I). unfold b16 in *. congruence.
Qed.

(** The modes are those of SP 800-38A. *)
Lemma is_ecb P : Forall b16 P -> forall iv, encrypts ECB E iv P (map E P).
Proof.
  intros F iv. split; [apply map_length|]. intros j J. unfold blk. rewrite (nth_indep _ [] (E [])) by (rewrite map_length; assumption).
  apply map_nth.
Qed.
Lemma is_cbc P : Forall b16 P -> forall iv, b16 iv -> encrypts CBC E iv P (cbcB iv P).
Proof.
  intros F iv I. split; [apply len_cbc; assumption|]. revert iv I.
  induction F as [|p P B F IH]; intros iv I j J; [cbn in J; lia|].
  cbn [cbcB]. destruct j as [|j]; [unfold blk; cbn [nth before]; rewrite XOR_eq, xor_comm; reflexivity|].
  cbn [length] in J. specialize (IH (E (xor_bytes iv p)) ltac:(auto using xor16) j ltac:(lia)).
  unfold blk in *. cbn [nth before]. rewrite IH. destruct j; reflexivity.
Qed.
Lemma is_cfb P : Forall b16 P -> forall iv, b16 iv -> encrypts CFB E iv P (cfbB iv P).
Proof.
  intros F iv I. split; [apply len_cfb; assumption|]. revert iv I.
  induction F as [|p P B F IH]; intros iv I j J; [cbn in J; lia|].
  cbn [cfbB]. destruct j as [|j]; [unfold blk; cbn [nth before]; rewrite XOR_eq, xor_comm; reflexivity|].
  cbn [length] in J. specialize (IH (xor_bytes (E iv) p) ltac:(auto using xor16) j ltac:(lia)).
  unfold blk in *. cbn [nth before]. rewrite IH. destruct j; reflexivity.
Qed.
Lemma is_ofb P : Forall b16 P -> forall iv, b16 iv -> encrypts OFB E iv P (ofbB iv P).
Proof.
  intros F iv I. split; [apply len_ofb; assumption|]. exists (ofbO iv P). revert iv I.
  induction F as [|p P B F IH]; intros iv I j J; [cbn in J; lia|].
  cbn [ofbB ofbO]. destruct j as [|j]; [unfold blk; cbn [nth before]; rewrite XOR_eq, xor_comm; split; reflexivity|].
  cbn [length] in J. specialize (IH (E iv) ltac:(auto) j ltac:(lia)).
  unfold blk in *. cbn [nth before]. destruct IH as (-> & ->). split; [destruct j; reflexivity|reflexivity].
Qed.

Lemma be_app a b : be (a ++ b) = be a * 256 ^ zlen b + be b.
Proof.
  unfold be. rewrite fold_left_app. generalize (fold_left (fun v b => 256 * v + bv b) a 0). intro v. revert v.
  induction b as [|x b IH]; intro v.
  - cbn. change (zlen (@nil byte)) with 0. lia.
  - cbn [fold_left]. rewrite IH, (IH (256 * 0 + bv x)). rewrite zlen_cons. rewrite Z.pow_add_r by (pose proof (zlen_nonneg b); lia).
    change (256 ^ 1) with 256. ring.
Qed.
Definition le (l : bytes) : Z := be (rev l).
Lemma le_cons b l : le (b :: l) = bv b + 256 * le l.
Proof. unfold le. cbn [rev]. rewrite be_app. change (zlen [b]) with 1. change (be [b]) with (256 * 0 + bv b). change (256 ^ 1) with 256. lia. Qed.
Lemma le_bound l : 0 <= le l < 256 ^ zlen l.
Proof.
  induction l as [|b l IH]; [split; reflexivity|]. rewrite le_cons, zlen_cons.
  rewrite Z.pow_add_r by (pose proof (zlen_nonneg l); lia). change (256 ^ 1) with 256.
  pose proof (bv_oct b). unfold oct in *. lia.
Qed.
Lemma le_inc l : le (inc_rev l) = (le l + 1) mod 256 ^ zlen l.
Proof.
  induction l as [|b l IH]; [reflexivity|]. cbn [inc_rev]. rewrite zlen_cons.
  rewrite Z.pow_add_r by (pose proof (zlen_nonneg l); lia). change (256 ^ 1) with 256.
  pose proof (le_bound l) as LB. pose proof (bv_oct b) as OB. unfold oct in OB.
  rewrite bv_zb. destruct ((bv b + 1) mod 256 =? 0) eqn:Z0.
  - assert (bv b = 255) by (Z.div_mod_to_equations; lia).
    rewrite le_cons, IH, bv_zb, le_cons. replace (bv b + 1) with 256 by lia. change (256 mod 256) with 0. rewrite Z.add_0_l.
    replace (bv b + 256 * le l + 1) with ((le l + 1) * 256) by lia.
    rewrite (Z.mul_comm (le l + 1)). rewrite Z.mul_mod_distr_l by lia. reflexivity.
  - assert (bv b < 255) by (Z.div_mod_to_equations; lia).
    rewrite !le_cons, bv_zb. rewrite Z.mod_small by lia. rewrite Z.mod_small; lia.
Qed.
Lemma be_inc l : b16 l -> be (inc_block l) = (be l + 1) mod 2 ^ 128.
Proof.
  intro B. unfold inc_block. fold (le (inc_rev (rev l))). rewrite le_inc. unfold le. rewrite rev_involutive.
  unfold zlen. rewrite rev_length, B. reflexivity.
Qed.
Lemma be_bound l : b16 l -> 0 <= be l < 2 ^ 128.
Proof.
  intro B. pose proof (le_bound (rev l)) as LB. unfold le in LB. rewrite rev_involutive in LB.
  unfold zlen in LB. rewrite rev_length, B in LB. exact LB.
Qed.
Lemma is_ctr P : Forall b16 P -> forall iv, b16 iv -> encrypts CTR E iv P (ctrB iv P).
Proof.
  intros F iv I. split; [apply len_ctr; assumption|]. exists (ctrT iv P). revert iv I.
  induction F as [|p P B F IH]; intros iv I j J; [cbn in J; lia|].
  cbn [ctrB ctrT]. destruct j as [|j].
  - unfold blk; cbn [nth]. rewrite XOR_eq, xor_comm. split; [exact I|]. split; [|reflexivity].
    rewrite Z.add_0_r. symmetry. apply Z.mod_small. apply be_bound. assumption.
  - cbn [length] in J. assert (I' : b16 (inc_block iv)) by (unfold b16; rewrite inc_block_length; assumption).
    specialize (IH (inc_block iv) I' j ltac:(lia)).
    unfold blk in *. cbn [nth before]. destruct IH as (L & V & C). split; [exact L|]. split; [|exact C].
    rewrite V, be_inc by assumption. rewrite Zplus_mod_idemp_l. f_equal. lia.
Qed.
End Modes.

(** ** Key derivation *)
Lemma kiv_length H mode key salt : hashes_ok H ->
  let '(k, iv) := rij_key_iv H mode key salt in
  length k = 32%nat /\ b16 iv /\ k ++ iv = bytes_to_key (h_md5 H) (final_pw mode key) salt.
Proof.
  intro OK. unfold rij_key_iv. cbn [kiv_loop]. set (ps := final_pw mode key ++ salt).
  set (d1 := h_md5 H ps). set (d2 := h_md5 H (d1 ++ ps)). set (d3 := h_md5 H (d2 ++ ps)).
  assert (M : forall x, length (h_md5 H x) = 16%nat).
  { intro x. destruct (OK x) as (L & _). unfold zlen in L. lia. }
  rewrite app_nil_r. unfold ztake, zdrop. change (Z.to_nat RIJNDAEL_MAX_KEYSIZE) with 32%nat.
  split; [|split].
  - rewrite firstn_length, !app_length. unfold d1, d2, d3. rewrite !M. reflexivity.
  - unfold b16. rewrite skipn_length, !app_length. unfold d1, d2, d3. rewrite !M. reflexivity.
  - rewrite firstn_skipn. reflexivity.
Qed.

(** ** Padding *)
Lemma pad_eq l : exists n, 1 <= n <= 16 /\ pad l = l ++ repeat (zb n) (Z.to_nat n) /\
  length (pad l) = (16 * (length l / 16 + 1))%nat.
Proof.
  exists (16 - zlen l mod 16). pose proof (Z.mod_pos_bound (zlen l) 16 ltac:(lia)).
  split; [lia|]. split; [reflexivity|]. unfold pad, RIJNDAEL_BLOCKSIZE. rewrite app_length, repeat_length. unfold zlen in *.
  pose proof (Nat.div_mod (length l) 16 ltac:(lia)). pose proof (Nat.mod_upper_bound (length l) 16 ltac:(lia)).
  assert (Z.of_nat (length l) mod 16 = Z.of_nat (length l mod 16)) by (rewrite Nat2Z.inj_mod; reflexivity). lia.
Qed.
Lemma pad_pkcs7 l : pkcs7 l (pad l).
Proof.
  destruct (pad_eq l) as (n & N & E & L). exists n. split; [exact N|]. split; [exact E|].
  unfold zlen. rewrite L. rewrite Nat2Z.inj_mul. change (Z.of_nat 16) with 16. rewrite Z.mul_comm. apply Z.mod_mul. lia.
Qed.
Lemma last_repeat (A : Type) (d x : A) l n : (0 < n)%nat -> last (l ++ repeat x n) d = x.
Proof.
  intro N. destruct n as [|n]; [lia|]. replace (S n) with (n + 1)%nat by lia. rewrite repeat_app, app_assoc. cbn [repeat]. apply last_last.
Qed.
Lemma unpad_pad l : unpad (pad l) = l.
Proof.
  destruct (pad_eq l) as (n & N & E & _). rewrite E. unfold unpad. rewrite last_repeat by lia.
  assert (V : bv (zb n) = n) by (apply bv_zb_oct; unfold oct; lia). rewrite V.
  replace (n <=? RIJNDAEL_BLOCKSIZE) with true by (unfold RIJNDAEL_BLOCKSIZE; lia).
  assert (L : zlen (l ++ repeat (zb n) (Z.to_nat n)) - n = zlen l).
  { rewrite zlen_app. unfold zlen at 2. rewrite repeat_length. lia. }
  rewrite L. unfold zdrop, ztake, zlen. rewrite Nat2Z.id. rewrite skipn_app, skipn_all, Nat.sub_diag. cbn [skipn app].
  replace (forallb _ _) with true.
  - rewrite firstn_app, firstn_all, Nat.sub_diag. cbn. apply app_nil_r.
  - symmetry. apply forallb_forall. intros x X. apply repeat_spec in X. subst x. apply Z.eqb_eq. exact V.
Qed.

(** ** The salted format *)
Definition mode_of (mode : Z) (m : mode_name) : Prop :=
  (mode = FKO_ENC_MODE_ECB /\ m = ECB) \/ (mode = FKO_ENC_MODE_CBC /\ m = CBC) \/
  (mode = FKO_ENC_MODE_CBC_LEGACY_IV /\ m = CBC) \/ (mode = FKO_ENC_MODE_CFB /\ m = CFB) \/
  (mode = FKO_ENC_MODE_OFB /\ m = OFB) \/ (mode = FKO_ENC_MODE_CTR /\ m = CTR).

Lemma aes_setup k : length k = 32%nat -> rijndael_setup RIJNDAEL_MAX_KEYSIZE k = rijndael_setup (zlen k) k.
Proof. intro L. unfold zlen. rewrite L. reflexivity. Qed.

Lemma block_round_trip k mode m iv input P out out' : length k = 32%nat -> mode_of mode m -> b16 iv -> cut P input ->
  let ctx := rijndael_setup RIJNDAEL_MAX_KEYSIZE k in
  exists C, block_encrypt ctx (rij_mode mode) input iv out = concat C /\ Forall b16 C /\
    encrypts m (rijndael_encrypt ctx) iv P C /\
    block_decrypt ctx (rij_mode mode) (concat C) iv out' = input.
Proof.
  intros K M I CU ctx. pose proof (cut_length P input CU) as CL. destruct CU as (CC & F).
  assert (N : (length input / 16)%nat = length P) by (rewrite CL, Nat.mul_comm; apply Nat.div_mul; lia).
  assert (AK : aes_key k) by (unfold aes_key; tauto).
  assert (El : forall b, b16 b -> b16 (rijndael_encrypt ctx b)) by (intros; apply encrypt_length).
  assert (DE : forall b, b16 b -> rijndael_decrypt ctx (rijndael_encrypt ctx b) = b).
  { intros b B. unfold ctx. rewrite aes_setup by assumption. apply decrypt_encrypt; assumption. }
  assert (N' : forall C, Forall b16 C -> length C = length P -> (length (concat C) / 16)%nat = length P).
  { intros C FC LC. rewrite (cut_length C (concat C)) by (split; [reflexivity|exact FC]). rewrite Nat.mul_comm, Nat.div_mul by lia. exact LC. }
  unfold block_encrypt, block_decrypt. rewrite N. rewrite <- CC.
  destruct M as [(-> & ->)|[(-> & ->)|[(-> & ->)|[(-> & ->)|[(-> & ->)|(-> & ->)]]]]].
  - exists (map (rijndael_encrypt ctx) P). destruct (len_ecb _ El P F) as (FC & LC). rewrite N' by assumption.
    split; [exact (ecb_blocks P F _)|]. split; [exact FC|]. split; [eapply is_ecb; eauto|]. exact (dec_ecb _ _ El DE P F).
  - exists (cbcB (rijndael_encrypt ctx) iv P). destruct (len_cbc _ El P F iv I) as (FC & LC). rewrite N' by assumption.
    split; [exact (cbc_blocks _ P F iv)|]. split; [exact FC|]. split; [eapply is_cbc; eauto|]. exact (dec_cbc _ _ El DE P F iv I).
  - exists (cbcB (rijndael_encrypt ctx) iv P). destruct (len_cbc _ El P F iv I) as (FC & LC). rewrite N' by assumption.
    split; [exact (cbc_blocks _ P F iv)|]. split; [exact FC|]. split; [eapply is_cbc; eauto|]. exact (dec_cbc _ _ El DE P F iv I).
  - exists (cfbB (rijndael_encrypt ctx) iv P). destruct (len_cfb _ El P F iv I) as (FC & LC). rewrite N' by assumption.
    split; [exact (cfb_blocks _ P F iv)|]. split; [exact FC|]. split; [eapply is_cfb; eauto|]. exact (dec_cfb _ El P F iv I).
  - exists (ofbB (rijndael_encrypt ctx) iv P). destruct (len_ofb _ El P F iv I) as (FC & LC). rewrite N' by assumption.
    split; [exact (ofb_blocks _ P F iv)|]. split; [exact FC|]. split; [eapply is_ofb; eauto|]. exact (dec_ofb _ El P F iv I).
  - exists (ctrB (rijndael_encrypt ctx) iv P). destruct (len_ctr _ El P F iv I) as (FC & LC). rewrite N' by assumption.
    split; [exact (ctr_blocks _ P F iv)|]. split; [exact FC|]. split; [eapply is_ctr; eauto|]. exact (dec_ctr _ El P F iv I).
Qed.

(** [encrypts] only looks at the cipher on blocks of 16 bytes. *)
Lemma encrypts_ext m E E' iv P C : (forall b, b16 b -> E b = E' b) -> (forall b, b16 b -> b16 (E b)) -> b16 iv -> Forall b16 P ->
  encrypts m E iv P C -> encrypts m E' iv P C.
Proof.
  intros X El I F (L & H). split; [exact L|].
  assert (FP : forall j, (j < length P)%nat -> b16 (blk P j)).
  { intros j J. apply (proj1 (Forall_forall _ _) F). apply nth_In. assumption. }
  destruct m.
  - intros j J. rewrite <- X by auto. auto.
  - assert (FC : forall j, (j < length P)%nat -> b16 (blk C j)).
    { induction j; intro J; rewrite H by assumption; apply El; apply xor16; auto. apply IHj. lia. }
    intros j J. rewrite H by assumption. apply X. apply xor16; [auto|]. destruct j; [exact I|apply FC; lia].
  - assert (FC : forall j, (j < length P)%nat -> b16 (blk C j)).
    { induction j; intro J; rewrite H by assumption; apply xor16; auto. apply El. apply IHj. lia. }
    intros j J. rewrite H by assumption. f_equal. apply X. destruct j; [exact I|apply FC; lia].
  - destruct H as (O & H). exists O.
    assert (FO : forall j, (j < length P)%nat -> b16 (blk O j)).
    { induction j; intro J; rewrite (proj1 (H _ J)); apply El; [exact I|]. apply IHj. lia. }
    intros j J. destruct (H j J) as (H1 & H2). split; [|exact H2]. rewrite H1. apply X. destruct j; [exact I|apply FO; lia].
  - destruct H as (T & H). exists T. intros j J. destruct (H j J) as (H1 & H2 & H3). rewrite <- X by exact H1. auto.
Qed.

Theorem salted_format H mode m key salt pt : hashes_ok H -> mode_of mode m -> zlen salt = 8 ->
  exists k iv padded P C,
    length k = 32%nat /\ length iv = 16%nat /\
    k ++ iv = bytes_to_key (h_md5 H) (final_pw mode key) salt /\
    pkcs7 pt padded /\ cut P padded /\ encrypts m (aes k) iv P C /\
    rij_encrypt H mode key salt pt = $ "Salted__" ++ salt ++ concat C /\
    length (concat C) = length padded /\
    rij_decrypt H mode key (rij_encrypt H mode key salt pt) = Ok pt.
Proof.
  intros OK M SL. pose proof (kiv_length H mode key salt OK) as KL.
  unfold rij_encrypt. destruct (rij_key_iv H mode key salt) as (k, iv) eqn:KI. destruct KL as (K & I & KD).
  destruct (pad_eq pt) as (n & N & PE & PL). destruct (cut_exists _ _ PL) as (P & CU & LP).
  destruct (block_round_trip k mode m iv (pad pt) P (repeat x00 (length (pad pt))) (repeat x00 (length (pad pt))) K M I CU) as (C & C1 & C2 & C3 & C4).
  assert (CLen : length (concat C) = length (pad pt)).
  { rewrite (cut_length C (concat C)) by (split; [reflexivity|exact C2]). rewrite (cut_length P (pad pt) CU). destruct C3 as (-> & _). reflexivity. }
  exists k, iv, (pad pt), P, C. split; [exact K|]. split; [exact I|]. split; [exact KD|]. split; [apply pad_pkcs7|].
  split; [exact CU|]. split.
  { destruct CU as (_ & F). apply (encrypts_ext m (rijndael_encrypt (rijndael_setup RIJNDAEL_MAX_KEYSIZE k))); auto.
    - intros b B. rewrite aes_setup by assumption. apply encrypt_is_aes; [unfold aes_key; tauto|exact B].
    - intros. apply encrypt_length. }
  rewrite C1. split; [reflexivity|]. split; [exact CLen|].
  unfold rij_decrypt.
  assert (S8 : length ($ "Salted__") = 8%nat) by reflexivity.
  assert (SN : length salt = 8%nat) by (unfold zlen in SL; lia).
  assert (D8 : zdrop SALT_LEN ($ "Salted__" ++ salt ++ concat C) = salt ++ concat C).
  { unfold zdrop. change (Z.to_nat SALT_LEN) with 8%nat. rewrite skipn_app, skipn_all2 by lia. rewrite S8. reflexivity. }
  assert (D16 : zdrop RIJNDAEL_BLOCKSIZE ($ "Salted__" ++ salt ++ concat C) = concat C).
  { unfold zdrop. change (Z.to_nat RIJNDAEL_BLOCKSIZE) with 16%nat. rewrite !skipn_app, !skipn_all2 by lia. rewrite S8, SN. reflexivity. }
  rewrite D8. unfold ztake. change (Z.to_nat SALT_LEN) with 8%nat. rewrite firstn_app, firstn_all2 by lia. rewrite SN. cbn [Nat.sub firstn].
  rewrite app_nil_r, KI.
  assert (ZL : zlen ($ "Salted__" ++ salt ++ concat C) <? 2 * RIJNDAEL_BLOCKSIZE = false).
  { unfold zlen, RIJNDAEL_BLOCKSIZE. rewrite !app_length, CLen, PL, S8, SN. lia. }
  rewrite ZL, D16, CLen, C4. rewrite unpad_pad. reflexivity.
Qed.

(** ** HMAC *)
Lemma ztake_app_l {A} (a b : list A) n : n = zlen a -> ztake n (a ++ b) = a.
Proof. intros ->. unfold ztake, zlen. rewrite Nat2Z.id, firstn_app, firstn_all, Nat.sub_diag. cbn. apply app_nil_r. Qed.
Lemma xor_pad c (k : bytes) n : (length k <= n)%nat ->
  xor_bytes (k ++ repeat x00 (n - length k)) (repeat (zb c) n) = map (fun b => zb (Z.lxor (bv b) (bv (zb c)))) k ++ repeat (zb c) (n - length k).
Proof.
  revert n. induction k as [|b k IH]; intros n N; cbn [length] in *.
  - rewrite Nat.sub_0_r. cbn [app map]. clear. induction n; [reflexivity|]. cbn [repeat]. rewrite xor_cons, IHn.
    change (bv x00) with 0. rewrite Z.lxor_0_l, zb_bv. reflexivity.
  - destruct n as [|n]; [lia|]. cbn [repeat app map Nat.sub]. rewrite xor_cons. rewrite IH by lia. reflexivity.
Qed.
Lemma pad_init_xor c k B : (B <= 136)%nat -> (length k <= B)%nat -> oct c ->
  ztake (Z.of_nat B) (pad_init c (array MAX_DIGEST_BLOCK_LEN k) (zlen k)) = XOR (k ++ repeat x00 (B - length k)) (repeat (zb c) B).
Proof.
  intros B136 KB C. rewrite XOR_eq, xor_pad by assumption. rewrite bv_zb_oct by assumption.
  unfold pad_init, array, MAX_DIGEST_BLOCK_LEN.
  assert (T : ztake (zlen k) (ztake 136 (k ++ repeat x00 (Z.to_nat (136 - zlen k)))) = k).
  { unfold ztake. rewrite firstn_firstn. replace (Nat.min _ _) with (length k) by (unfold zlen; lia).
    rewrite firstn_app, firstn_all, Nat.sub_diag. cbn. apply app_nil_r. }
  rewrite T. unfold ztake. rewrite Nat2Z.id.
  replace (Z.to_nat (136 - zlen k)) with ((B - length k) + (136 - B))%nat by (unfold zlen; lia).
  rewrite repeat_app, app_assoc. rewrite firstn_app. rewrite app_length, map_length, repeat_length.
  replace (B - (length k + (B - length k)))%nat with O by lia. cbn [firstn]. rewrite app_nil_r.
  apply firstn_all2. rewrite app_length, map_length, repeat_length. lia.
Qed.
Lemma hmac_is_rfc h B D key msg : (forall x, length (h x) = D) -> (D <= B <= 136)%nat ->
  hmac_code h (Z.of_nat B) (Z.of_nat D) key msg = rfc2104 h B key msg.
Proof.
  intros HD BD. unfold hmac_code, rfc2104.
  assert (TK : forall x, ztake (Z.of_nat D) (h x) = h x) by (intro x; unfold ztake; rewrite Nat2Z.id; apply firstn_all2; rewrite HD; lia).
  destruct (B <? length key)%nat eqn:E.
  - replace (Z.of_nat B <? zlen key) with true by (apply Nat.ltb_lt in E; unfold zlen; lia).
    assert (DD : Z.of_nat D = zlen (h key)) by (unfold zlen; rewrite HD; reflexivity). rewrite DD in *.
    rewrite !pad_init_xor by (try (unfold oct; lia); rewrite ?HD; lia). rewrite TK. reflexivity.
  - apply Nat.ltb_ge in E. replace (Z.of_nat B <? zlen key) with false by (unfold zlen; lia).
    rewrite !pad_init_xor by (try (unfold oct; lia); lia). rewrite TK. reflexivity.
Qed.
Lemma api_mode_of mode m : api_mode mode m -> mode_of mode m.
Proof. intro A. unfold mode_of. inversion A; subst; tauto. Qed.
Lemma final_pw_password mode key : final_pw mode key = password mode key.
Proof.
  unfold final_pw, password, FKO_ENC_MODE_CBC_LEGACY_IV, RIJNDAEL_MIN_KEYSIZE. destruct (mode =? 8); [|reflexivity].
  cbn [andb]. destruct (zlen key <? 16) eqn:E.
  - do 2 f_equal. unfold zlen in *. lia.
  - replace (16 - length key)%nat with O by (unfold zlen in *; lia). symmetry. apply app_nil_r.
Qed.
Lemma hmac_of_rfc H t h key msg : hashes_ok H -> hash_number H t h ->
  hmac_of H t key msg = Some (rfc2104 h (hash_block t) key msg).
Proof.
  intros OK HN. assert (L : forall x n, zlen x = Z.of_nat n -> @length byte x = n) by (intros x n; unfold zlen; lia).
  assert (G : forall g B D, (forall x, length (g x) = D) -> (D <= B <= 136)%nat -> forall b d, b = Z.of_nat B -> d = Z.of_nat D ->
    Some (hmac_code g b d key msg) = Some (rfc2104 g B key msg)).
  { intros g B D X Y b d -> ->. f_equal. apply hmac_is_rfc; assumption. }
  destruct HN; unfold hmac_of;
  [ apply (G (h_md5 H) 64%nat 16%nat) | apply (G (h_sha1 H) 64%nat 20%nat) | apply (G (h_sha256 H) 64%nat 32%nat)
  | apply (G (h_sha384 H) 128%nat 48%nat) | apply (G (h_sha512 H) 128%nat 64%nat)
  | apply (G (h_sha3_256 H) 136%nat 32%nat) | apply (G (h_sha3_512 H) 72%nat 64%nat) ]; try reflexivity; try lia;
    intro x; destruct (OK x) as (?&?&?&?&?&?&?); apply L; assumption.
Qed.
