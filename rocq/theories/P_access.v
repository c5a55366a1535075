From Verif Require Import Bytes P_bytes M_util M_message P_util P_util2 P_message S_text M_access S_access.
From Coq Require Import Init.Byte List ZArith Bool Lia.
Import ListNotations.
Open Scope Z_scope.

Local Notation comma := ","%byte.

(** ** Splitting *)

Lemma split_exists (s : bytes) : exists raws, s = join [comma] raws /\ raws <> [] /\
  Forall (fun r => ~ In comma r) raws.
Proof.
  induction s as [|c s IH].
  - exists [[]]. repeat split; [discriminate|]. constructor; auto.
  - destruct IH as (raws & E & N & F). destruct (beq_spec c comma) as [->|D].
    + exists ([] :: raws). destruct raws as [|r rs]; [congruence|].
      repeat split; [|discriminate|constructor; auto]. rewrite E. reflexivity.
    + destruct raws as [|r rs]; [congruence|]. inversion F; subst.
      exists ((c :: r) :: rs). repeat split; [|discriminate|].
      * destruct rs; reflexivity.
      * constructor; auto. cbn. intros [X|X]; auto.
Qed.

Lemma join_cons sep (r : bytes) rs : rs <> [] -> join sep (r :: rs) = r ++ sep ++ join sep rs.
Proof. destruct rs; [congruence|reflexivity]. Qed.

Lemma split_unique (a b : list bytes) :
  a <> [] -> b <> [] -> Forall (fun r => ~ In comma r) a -> Forall (fun r => ~ In comma r) b ->
  join [comma] a = join [comma] b -> a = b.
Proof.
  revert b. induction a as [|x a IH]; intros [|y b] NA NB FA FB E; try congruence.
  inversion FA; subst. inversion FB; subst.
  destruct a as [|x2 a]; destruct b as [|y2 b].
  - cbn in E. congruence.
  - rewrite (join_cons _ y) in E by discriminate. cbn [join] in E. exfalso. apply H1. rewrite E.
    apply in_or_app; right; left; reflexivity.
  - rewrite (join_cons _ x) in E by discriminate. cbn [join] in E. exfalso. apply H3. rewrite <- E.
    apply in_or_app; right; left; reflexivity.
  - rewrite (join_cons _ x), (join_cons _ y) in E by discriminate. cbn [app] in E.
    apply split_at_comma in E; auto. destruct E as [-> E]. f_equal.
    apply IH; auto; discriminate.
Qed.

Section expand.
  Context {A : Type} (lim : Z) (add : bytes -> option A).

  Definition one (raw : bytes) : option A :=
    let it := skip_space raw in if zlen it + 1 >=? lim then None else add it.

  Fixpoint all (raws : list bytes) : option (list A) :=
    match raws with
    | [] => Some []
    | r :: rs => match one r with
                 | None => None
                 | Some e => match all rs with Some l => Some (e :: l) | None => None end
                 end
    end.

  Lemma expand_run w : ~ In comma w -> forall t cur l,
    expand_list lim add (w ++ t) cur l = expand_list lim add t (cur ++ w) l.
  Proof.
    induction w as [|c w IH]; intros N t cur l; [rewrite app_nil_r; reflexivity|].
    cbn. destruct (beq_spec c comma) as [->|D]; [exfalso; apply N; left; auto|].
    rewrite IH by (intro; apply N; right; auto). rewrite <- app_assoc. reflexivity.
  Qed.

  Lemma expand_all raws : forall l, raws <> [] -> Forall (fun r => ~ In comma r) raws ->
    expand_list lim add (join [comma] raws) [] l =
      match all raws with Some l' => Some (l ++ l') | None => None end.
  Proof.
    induction raws as [|r rs IH]; intros l N F; [congruence|]. inversion F; subst.
    destruct rs as [|r2 rs].
    - cbn [join]. rewrite <- (app_nil_r r) at 1. rewrite expand_run by auto. cbn [app expand_list all].
      unfold one. destruct (zlen (skip_space r) + 1 >=? lim); [reflexivity|].
      destruct (add (skip_space r)); reflexivity.
    - rewrite join_cons by discriminate. rewrite expand_run by auto. cbn [app expand_list].
      change (beq comma comma) with true. cbn match.
      cbn [all]. unfold one at 1.
      destruct (zlen (skip_space r) + 1 >=? lim); [reflexivity|].
      destruct (add (skip_space r)) as [e|]; [|reflexivity].
      rewrite IH by (auto; discriminate). cbn [all].
      destruct (one r2); [|reflexivity]. destruct (all rs); [|reflexivity].
      rewrite <- app_assoc. reflexivity.
  Qed.

  Lemma all_forall2 raws l : all raws = Some l <-> Forall2 (fun r e => one r = Some e) raws l.
  Proof.
    revert l. induction raws as [|r rs IH]; intro l; cbn.
    - split; [intro E; inversion E; constructor|intro H; inversion H; reflexivity].
    - split.
      + destruct (one r) eqn:E1; [|discriminate]. destruct (all rs) eqn:E2; [|discriminate].
        intro E; inversion E; subst. constructor; auto. apply IH; auto.
      + intro H; inversion H; subst. rewrite H2. apply IH in H4. rewrite H4. reflexivity.
  Qed.
End expand.

Lemma skip_space_split s : exists sp, s = sp ++ skip_space s /\ Forall blank sp /\ ~ blank (hd x00 (skip_space s)).
Proof.
  induction s as [|c s IH]; cbn.
  - exists []. repeat split; auto. intros [H|H]; revert H; vm_compute; [discriminate|intros [H _]; apply H; reflexivity].
  - destruct (isspace c) eqn:E.
    + destruct IH as (sp & E1 & F & N). exists (c :: sp). repeat split; auto.
      * cbn. congruence.
      * constructor; auto. apply isspace_blank; auto.
    + exists []. repeat split; auto. cbn. apply isspace_not_blank; auto.
Qed.

Lemma skip_space_unique raw sp it : raw = sp ++ it -> Forall blank sp -> ~ blank (hd x00 it) -> skip_space raw = it.
Proof. intros -> F N. apply skip_space_spec; auto. Qed.

Lemma skip_space_comma r : ~ In comma r -> ~ In comma (skip_space r).
Proof.
  destruct (skip_space_split r) as (sp & E & _). intros N I. apply N. rewrite E. apply in_or_app; auto.
Qed.

Lemma skip_space_idem r : skip_space (skip_space r) = skip_space r.
Proof.
  destruct (skip_space_split r) as (sp & _ & _ & N).
  apply (skip_space_unique _ []); auto.
Qed.

(** [one] on a raw item is the whole parser on the trimmed item. *)
Lemma expand_one {A} lim (add : bytes -> option A) it e : ~ In comma it ->
  expand_list lim add it [] [] = Some [e] <-> one lim add it = Some e.
Proof.
  intro N. pose proof (expand_all lim add [it] [] ltac:(discriminate) ltac:(constructor; auto)) as H.
  cbn [join all] in H. rewrite H. destruct (one lim add it); cbn; split; congruence.
Qed.

Lemma one_trim {A} lim (add : bytes -> option A) r : one lim add (skip_space r) = one lim add r.
Proof. unfold one. rewrite skip_space_idem. reflexivity. Qed.

(** A list is accepted exactly when each of its items is, and yields the entries in order. *)
Theorem expand_listed {A} lim (add : bytes -> option A) s l :
  expand_list lim add s [] [] = Some l <->
  exists items, listed s items /\ Forall2 (fun it e => expand_list lim add it [] [] = Some [e]) items l.
Proof.
  destruct (split_exists s) as (raws & E & N & F). split.
  - rewrite E, expand_all by auto. cbn [app].
    destruct (all lim add raws) as [l'|] eqn:EA; [|discriminate]. intro X; inversion X; subst l'.
    apply all_forall2 in EA. exists (map skip_space raws). split.
    + exists raws. repeat split; auto. clear. induction raws as [|r rs IH]; constructor; auto.
      apply skip_space_split.
    + clear - EA F. induction EA; cbn; constructor; inversion F; subst; auto.
      apply expand_one; [apply skip_space_comma; auto|]. rewrite one_trim. auto.
  - intros (items & (raws' & E' & N' & F' & FF) & H).
    rewrite E', expand_all by auto. cbn [app].
    assert (X : all lim add raws' = Some l).
    { apply all_forall2. clear - FF H F'. revert l H.
      induction FF; intros l0 H1; inversion H1; subst; constructor; inversion F'; subst; auto.
      destruct H as (sp & -> & B & NB). apply expand_one in H3.
      2:{ intro; apply H4. apply in_or_app; auto. }
      unfold one in *. rewrite (skip_space_unique _ _ _ eq_refl B NB).
      rewrite (skip_space_unique y [] y eq_refl) in H3 by auto. exact H3. }
    rewrite X. reflexivity.
Qed.

(** Nothing is silently dropped: every text lists something, uniquely, and a refused
    list contains a refused item. *)
Theorem listed_total s : exists items, listed s items /\ items <> [].
Proof.
  destruct (split_exists s) as (raws & E & N & F). exists (map skip_space raws). split.
  - exists raws. repeat split; auto. clear. induction raws as [|r rs IH]; constructor; auto.
    apply skip_space_split.
  - destruct raws; cbn; congruence.
Qed.

Theorem listed_functional s i j : listed s i -> listed s j -> i = j.
Proof.
  intros (r & E & N & F & H) (r' & E' & N' & F' & H').
  assert (r = r') by (apply split_unique; auto; congruence). subst r'.
  clear - H H'. revert j H'. induction H; intros j H'; inversion H'; subst; auto.
  f_equal; auto. destruct H as (sp & E & B & NB), H3 as (sp2 & E2 & B2 & NB2).
  rewrite <- (skip_space_unique _ _ _ E B NB). apply (skip_space_unique _ _ _ E2); auto.
Qed.

Theorem expand_refused {A} lim (add : bytes -> option A) s items :
  listed s items ->
  expand_list lim add s [] [] = None <-> exists it, In it items /\ expand_list lim add it [] [] = None.
Proof.
  intros L. assert (C : Forall (fun it => ~ In comma it) items).
  { destruct L as (raws & _ & _ & F & H). clear - F H. induction H; constructor; inversion F; subst; auto.
    destruct H as (sp & -> & _). intro; apply H3. apply in_or_app; auto. }
  assert (S1 : forall it, ~ In comma it -> expand_list lim add it [] [] = None \/ exists e, expand_list lim add it [] [] = Some [e]).
  { intros it Nc. pose proof (expand_all lim add [it] [] ltac:(discriminate) ltac:(constructor; auto)) as H.
    cbn [join all] in H. rewrite H. destruct (one lim add it); cbn; eauto. }
  split.
  - intro E. assert (X : ~ (exists l, Forall2 (fun it e => expand_list lim add it [] [] = Some [e]) items l)).
    { intros [l H]. assert (expand_list lim add s [] [] = Some l) by (apply expand_listed; eauto). congruence. }
    clear - X C S1. induction items as [|it items IH].
    + exfalso. apply X. exists []. constructor.
    + inversion C; subst. destruct (S1 it H1) as [E|[e E]].
      * exists it. split; [left|]; auto.
      * destruct IH as (it' & I & E'); auto.
        -- intros [l H]. apply X. exists (e :: l). constructor; auto.
        -- exists it'. split; [right|]; auto.
  - intros (it & I & E). destruct (expand_list lim add s [] []) as [l|] eqn:EL; auto.
    apply expand_listed in EL. destruct EL as (items' & L' & H).
    rewrite (listed_functional _ _ _ L' L) in H. exfalso. clear - I E H.
    induction H; destruct I; subst; auto. congruence.
Qed.

(** String lists. *)
Theorem expand_string_one it : ~ In comma it ->
  expand_acc_string_list it = (if zlen (skip_space it) <? 1023 then Some [skip_space it] else None).
Proof.
  intro N. pose proof (expand_all MAX_LINE_LEN add_string_list_ent [it] [] ltac:(discriminate) ltac:(constructor; auto)) as H.
  cbn [join all] in H. unfold expand_acc_string_list. rewrite H. unfold one, add_string_list_ent, MAX_LINE_LEN.
  destruct (zlen (skip_space it) + 1 >=? 1024) eqn:E1; destruct (zlen (skip_space it) <? 1023) eqn:E2; try lia; reflexivity.
Qed.

Theorem expand_string_list_iff s l :
  expand_acc_string_list s = Some l <-> listed s l /\ Forall (fun it => zlen it <= 1022) l.
Proof.
  split.
  - intro E. pose proof (proj1 (expand_listed MAX_LINE_LEN add_string_list_ent s l) E) as (items & L & H).
    assert (X : l = items /\ Forall (fun it => zlen it <= 1022) items).
    { destruct L as (raws & _ & _ & F & FF). clear - H F FF. revert l H.
      induction FF; intros l0 H0; inversion H0; subst; [auto|].
      inversion F; subst. destruct (IHFF H6 _ H5) as [-> B].
      destruct H as (sp & -> & Bs & NB).
      change (expand_acc_string_list y = Some [y0]) in H3. rewrite expand_string_one in H3.
      2:{ intro; apply H4. apply in_or_app; auto. }
      rewrite (skip_space_unique y [] y eq_refl) in H3 by auto.
      destruct (zlen y <? 1023) eqn:Y; [|discriminate]. inversion H3; subst. split; auto.
      constructor; auto. lia. }
    destruct X as [-> B]. auto.
  - intros [L B]. apply (expand_listed MAX_LINE_LEN add_string_list_ent s l). exists l. split; auto.
    destruct L as (raws & _ & _ & F & FF). clear - B F FF.
    induction FF; constructor; inversion F; inversion B; subst; auto.
    destruct H as (sp & -> & Bs & NB).
    change (expand_acc_string_list y = Some [y]). rewrite expand_string_one.
    2:{ intro; apply H2. apply in_or_app; auto. }
    rewrite (skip_space_unique y [] y eq_refl) by auto.
    destruct (zlen y <? 1023) eqn:Y; [auto|lia].
Qed.

(** ** Letters *)
Lemma lower_tolower s : lower s = map tolower s.
Proof. reflexivity. Qed.

Lemma strcaseeq_lower s t : strcaseeq s t = true <-> lower s = map tolower t.
Proof. unfold strcaseeq. rewrite bseq_eq. reflexivity. Qed.

(** ** Address entries *)

Lemma addr_range s a b c d : ipv4_text s a b c d -> 0 <= addr a b c d < 4294967296.
Proof.
  intro H. pose proof (inet_aton_text _ _ _ _ _ H) as (_ & A & B & C & D).
  destruct H as (? & ? & ? & ? & _ & _ & _ & _ & _ & A' & B' & C' & D'). unfold addr. lia.
Qed.

Lemma ipv4_first s a b c d : ipv4_text s a b c d -> exists x r, s = x :: r /\ digit x.
Proof.
  intros (A & B & C & D & -> & (NA & DA & _) & _). destruct A as [|x r]; [congruence|].
  inversion DA; subst. exists x. eexists. split; [reflexivity|auto].
Qed.

Lemma ipv4_no_slash s a b c d : ipv4_text s a b c d -> ~ In "/"%byte s.
Proof.
  intros H I. apply ipv4_text_chars in H. rewrite Forall_forall in H. destruct (H _ I) as [X|X].
  - discriminate.
  - revert X. vm_compute. intros [X _]. apply X. reflexivity.
Qed.

Lemma ipv4_no_comma s a b c d : ipv4_text s a b c d -> ~ In comma s.
Proof. apply ipv4_text_no_comma. Qed.

Lemma digits_no c s : all_digits s -> ~ digit c -> ~ In c s.
Proof. intros F N I. unfold all_digits in F. rewrite Forall_forall in F. auto. Qed.

Lemma digit_first_not_any s x r : s = x :: r -> digit x -> strcaseeq s ($ "ANY") = false.
Proof.
  intros -> D. unfold strcaseeq. apply bseq_neq. cbn [map]. intro E. inversion E as [[E1 E2]].
  unfold tolower in E1. unfold digit in D.
  assert (U : isupper x = false) by (unfold isupper; lia). rewrite U in E1. rewrite E1 in D. revert D. vm_compute. intros [_ X]. apply X. reflexivity.
Qed.

Lemma index_of_app_slash p t : ~ In "/"%byte p -> index_of "/"%byte (p ++ ["/"%byte] ++ t) = Some (length p).
Proof. intro N. apply (index_of_app "/"%byte p t N). Qed.

Lemma take_drop_slash p t :
  ztake (Z.of_nat (length p)) (p ++ ["/"%byte] ++ t) = p /\
  zdrop (Z.of_nat (length p) + 1) (p ++ ["/"%byte] ++ t) = t.
Proof.
  split; [apply ztake_app; reflexivity|].
  rewrite app_assoc. apply zdrop_app. rewrite zlen_app. reflexivity.
Qed.

(** Masking by 2^32 - 2^(32-n) compares leading bits. *)
Lemma cidr_mask n : 0 < n < 32 -> u32 (Z.shiftl 4294967295 (32 - n)) = 4294967296 - 2 ^ (32 - n).
Proof.
  intro R. unfold u32. rewrite Z.shiftl_mul_pow2 by lia.
  replace (4294967295 * 2 ^ (32 - n)) with (4294967296 * (2 ^ (32 - n) - 1) + (4294967296 - 2 ^ (32 - n))) by ring.
  rewrite Z.mul_comm, Z.add_comm, Z.mod_add by lia. apply Z.mod_small.
  assert (0 < 2 ^ (32 - n)) by (apply Z.pow_pos_nonneg; lia).
  assert (2 ^ (32 - n) <= 2 ^ 32) by (apply Z.pow_le_mono_r; lia). change (2 ^ 32) with 4294967296 in *. lia.
Qed.

Lemma cidr_mask_shift n : 0 < n < 32 -> 4294967296 - 2 ^ (32 - n) = Z.shiftl (Z.ones n) (32 - n).
Proof.
  intro R. rewrite Z.shiftl_mul_pow2, Z.ones_equiv by lia. unfold Z.pred.
  change 4294967296 with (2 ^ 32). replace 32 with (n + (32 - n)) at 1 by lia. rewrite Z.pow_add_r by lia. ring.
Qed.

Lemma land_cidr x n : 0 < n < 32 -> 0 <= x < 4294967296 ->
  Z.land x (4294967296 - 2 ^ (32 - n)) = (x / 2 ^ (32 - n)) * 2 ^ (32 - n).
Proof.
  intros R X. rewrite cidr_mask_shift by auto. apply Z.bits_inj_iff'. intros i I.
  rewrite Z.land_spec, Z.shiftl_spec by lia. rewrite Z.mul_comm.
  destruct (Z.ltb_spec i (32 - n)).
  - rewrite (Z.testbit_neg_r (Z.ones n)) by lia. rewrite andb_false_r.
    rewrite Z.mul_comm, Z.mul_pow2_bits_low by lia. reflexivity.
  - rewrite Z.mul_comm, Z.mul_pow2_bits by lia. rewrite Z.div_pow2_bits by lia.
    replace (i - (32 - n) + (32 - n)) with i by lia.
    destruct (Z.ltb_spec (i - (32 - n)) n).
    + rewrite Z.ones_spec_low by lia. rewrite andb_true_r. reflexivity.
    + rewrite Z.ones_spec_high by lia. rewrite andb_false_r. symmetry.
      destruct (Z.eq_dec x 0) as [->|NX]; [apply Z.bits_0|].
      apply Z.bits_above_log2; [lia|]. apply Z.log2_lt_pow2; [lia|].
      apply Z.lt_le_trans with (2 ^ 32); [change (2^32) with 4294967296; lia|]. apply Z.pow_le_mono_r; lia.
Qed.

Lemma match_one e x : compare_addr_list [e] x = true <->
  Z.land x (net_mask e) = Z.land (net_maddr e) (net_mask e).
Proof.
  cbn. destruct (Z.eqb_spec (Z.land x (net_mask e)) (Z.land (net_maddr e) (net_mask e))); split; congruence.
Qed.

Lemma compare_addr_app a b x : compare_addr_list (a ++ b) x = compare_addr_list a x || compare_addr_list b x.
Proof. induction a; cbn; auto. destruct (_ =? _); auto. Qed.

Lemma land_mask_self a m : Z.land (Z.land a m) m = Z.land a m.
Proof. rewrite <- Z.land_assoc, Z.land_diag. reflexivity. Qed.

Lemma match_masked a m x : compare_addr_list [mknet (Z.land a m) m] x = true <-> Z.land x m = Z.land a m.
Proof. rewrite match_one. cbn. rewrite land_mask_self. reflexivity. Qed.

Lemma full_mask x : 0 <= x < 4294967296 -> Z.land x 4294967295 = x.
Proof. intro R. change 4294967295 with (Z.ones 32). rewrite Z.land_ones by lia. apply Z.mod_small. exact R. Qed.

Lemma land_bits x a m : Z.land x m = Z.land a m <->
  (forall i, Z.testbit m i = true -> Z.testbit x i = Z.testbit a i).
Proof.
  split.
  - intros E i M. assert (X : Z.testbit (Z.land x m) i = Z.testbit (Z.land a m) i) by (rewrite E; auto).
    rewrite !Z.land_spec, M, !andb_true_r in X. exact X.
  - intro H. apply Z.bits_inj. intro i. rewrite !Z.land_spec. destruct (Z.testbit m i) eqn:M.
    + rewrite H; auto.
    + rewrite !andb_false_r. reflexivity.
Qed.

Lemma add_int_ent_spec it P : net_entry it P -> ~ odd_mask it ->
  exists e, add_int_ent it = Some e /\
    forall x, addr32 x -> (compare_addr_list [e] x = true <-> P x).
Proof.
  intros H NO. destruct H as [it H|it a b c d H L|ip a b c d ds H L LD AD RD|ip a b c d m e f g h H L HM LM].
  - exists (mknet 0 0). split.
    + unfold add_int_ent. replace (strcaseeq it ($ "ANY")) with true; auto.
      symmetry. apply strcaseeq_lower. rewrite H. reflexivity.
    + intros x _. rewrite match_one. cbn. rewrite !Z.land_0_r. tauto.
  - destruct (ipv4_first _ _ _ _ _ H) as (x0 & r0 & E0 & D0).
    unfold add_int_ent. rewrite (digit_first_not_any _ _ _ E0 D0). unfold split_entry.
    rewrite (proj2 (index_of_None "/"%byte it)) by (eapply ipv4_no_slash; eauto).
    unfold strnlen, MAX_IPV4_STR_LEN. replace (Z.min (zlen it) (16 + 1) >=? 16) with false by lia.
    rewrite (proj1 (inet_aton_text _ _ _ _ _ H)). fold (addr a b c d).
    eexists; split; [reflexivity|]. intros x X. cbn [final_mask Z.eqb]. change (32 =? 32) with true. cbn match.
    rewrite match_masked, !full_mask by (auto; eapply addr_range; eauto). tauto.
  - destruct (ipv4_first _ _ _ _ _ H) as (x0 & r0 & E0 & D0).
    unfold add_int_ent. rewrite (digit_first_not_any _ x0 (r0 ++ ["/"%byte] ++ ds)) by (rewrite ?E0; auto).
    unfold split_entry. rewrite index_of_app_slash by (eapply ipv4_no_slash; eauto).
    change (Z.of_nat (length ip)) with (zlen ip). unfold MAX_IPV4_STR_LEN.
    replace (zlen ip >=? 16) with false by lia.
    destruct (take_drop_slash ip ds) as [T D]. unfold zlen. rewrite T, D.
    unfold parse_mask. fold (zlen ds). change (Z.of_nat (length ds)) with (zlen ds).
    replace (zlen ds >? 2) with false by lia. replace (zlen ds >? 0) with true by lia.
    rewrite strtol_wrapper_digits by (auto; lia).
    rewrite (proj1 (inet_aton_text _ _ _ _ _ H)). fold (addr a b c d). rewrite u32_small by lia.
    eexists; split; [reflexivity|]. intros x X. pose proof (addr_range _ _ _ _ _ H) as AR.
    unfold final_mask. destruct (Z.eqb_spec (decimal ds) 32) as [E32|N32].
    + rewrite match_masked, !full_mask by auto. rewrite E32. change (2 ^ (32 - 32)) with 1. rewrite !Z.div_1_r. tauto.
    + replace (decimal ds >? 0) with true by lia. replace (decimal ds <? 32) with true by lia. cbn [andb].
      rewrite cidr_mask by lia. rewrite match_masked, !land_cidr by (auto; lia).
      assert (0 < 2 ^ (32 - decimal ds)) by (apply Z.pow_pos_nonneg; lia). nia.
  - destruct (ipv4_first _ _ _ _ _ H) as (x0 & r0 & E0 & D0).
    unfold add_int_ent. rewrite (digit_first_not_any _ x0 (r0 ++ ["/"%byte] ++ m)) by (rewrite ?E0; auto).
    unfold split_entry. rewrite index_of_app_slash by (eapply ipv4_no_slash; eauto).
    change (Z.of_nat (length ip)) with (zlen ip). unfold MAX_IPV4_STR_LEN.
    replace (zlen ip >=? 16) with false by lia.
    destruct (take_drop_slash ip m) as [T D]. unfold zlen. rewrite T, D.
    pose proof (ipv4_text_len _ _ _ _ _ HM) as LM7.
    unfold parse_mask. unfold MIN_IPV4_STR_LEN, MAX_IPV4_STR_LEN.
    replace (zlen m >? 2) with true by lia.
    replace ((zlen m >=? 7) && (zlen m <? 16)) with true by lia.
    rewrite (proj1 (inet_aton_text _ _ _ _ _ HM)). fold (addr e f g h).
    rewrite (proj1 (inet_aton_text _ _ _ _ _ H)). fold (addr a b c d).
    eexists; split; [reflexivity|]. intros x X.
    unfold final_mask. destruct (Z.eqb_spec (addr e f g h) 32) as [E32|N32].
    + exfalso. apply NO. exists ip, m. split; auto. split; [eapply ipv4_no_slash; eauto|].
      pose proof (inet_aton_text _ _ _ _ _ HM) as (_ & P1 & P2 & P3 & P4).
      assert (B : e <= 255 /\ f <= 255 /\ g <= 255 /\ h <= 255).
      { destruct HM as (? & ? & ? & ? & _ & _ & _ & _ & _ & BB). exact BB. }
      unfold addr in E32. assert (e = 0 /\ f = 0 /\ g = 0 /\ h = 32) as (-> & -> & -> & ->) by lia. exact HM.
    + cbn [andb]. rewrite match_masked. apply land_bits.
Qed.

Lemma net_entry_shape it P : net_entry it P -> ~ In comma it /\ ~ blank (hd x00 it) /\ zlen it <= 31.
Proof.
  assert (DB : forall x r, digit x -> ~ blank (hd x00 (x :: r))).
  { intros x r D B. cbn in B. unfold digit, blank in *. lia. }
  intros [it' H|it' a b c d H L|ip a b c d ds H L LD AD RD|ip a b c d m e f g h H L HM LM].
  - assert (X : forall c, In c it' -> In (tolower c) ($ "any")).
    { intros c I. rewrite <- H. rewrite lower_tolower. apply in_map; auto. }
    split; [|split].
    + intro I. apply X in I. revert I. vm_compute. intuition discriminate.
    + destruct it' as [|c r]; [discriminate|]. specialize (X c (or_introl eq_refl)). cbn [hd].
      intro B. apply blank_isspace in B.
      assert (T : tolower c = c). { unfold tolower. unfold isspace in B. unfold isupper. replace ((65 <=? bv c) && (bv c <=? 90)) with false by lia. auto. }
      rewrite T in X. cbn in X. intuition (subst c; discriminate).
    + assert (length it' = 3)%nat. { erewrite <- (map_length tolower). rewrite <- lower_tolower, H. reflexivity. }
      unfold zlen. lia.
  - destruct (ipv4_first _ _ _ _ _ H) as (x0 & r0 & E0 & D0).
    split; [eapply ipv4_no_comma; eauto|]. split; [rewrite E0; auto|lia].
  - destruct (ipv4_first _ _ _ _ _ H) as (x0 & r0 & E0 & D0). split; [|split].
    + intro I. apply in_app_or in I. destruct I as [I|[I|I]]; [eapply ipv4_no_comma; eauto|discriminate|].
      revert I. apply digits_no; auto. vm_compute. intros [X _]. apply X. reflexivity.
    + rewrite E0. apply DB; auto.
    + rewrite !zlen_app. change (zlen ["/"%byte]) with 1. lia.
  - destruct (ipv4_first _ _ _ _ _ H) as (x0 & r0 & E0 & D0). split; [|split].
    + intro I. apply in_app_or in I. destruct I as [I|[I|I]]; [exact (ipv4_no_comma _ _ _ _ _ H I)|discriminate|].
      exact (ipv4_no_comma _ _ _ _ _ HM I).
    + rewrite E0. apply DB; auto.
    + rewrite !zlen_app. change (zlen ["/"%byte]) with 1. lia.
Qed.

Lemma expand_net_one it P : net_entry it P -> ~ odd_mask it ->
  exists e, expand_acc_int_list it = Some [e] /\
    forall x, addr32 x -> (compare_addr_list [e] x = true <-> P x).
Proof.
  intros H NO. destruct (add_int_ent_spec _ _ H NO) as (e & E & M). exists e. split; auto.
  destruct (net_entry_shape _ _ H) as (NC & NB & L).
  apply expand_one; auto. unfold one. rewrite (skip_space_unique it [] it eq_refl) by auto.
  unfold ACCESS_BUF_LEN. replace (zlen it + 1 >=? 33) with false by lia. exact E.
Qed.

Theorem net_list s items Ps :
  listed s items -> Forall2 net_entry items Ps -> Forall (fun it => ~ odd_mask it) items ->
  exists l, expand_acc_int_list s = Some l /\ length l = length items /\
    forall x, addr32 x -> (compare_addr_list l x = true <-> Exists (fun P => P x) Ps).
Proof.
  intros L H NO.
  assert (X : exists l, Forall2 (fun it e => expand_acc_int_list it = Some [e]) items l /\
     length l = length items /\
     forall x, addr32 x -> (compare_addr_list l x = true <-> Exists (fun P => P x) Ps)).
  { clear L. induction H as [|it P items Ps H HH IH].
    - exists []. split; [constructor|]. split; auto. intros x _. cbn. split; [discriminate|]. intro E; inversion E.
    - inversion NO; subst. destruct (IH H3) as (l & F & LN & M).
      destruct (expand_net_one _ _ H H2) as (e & E & Me).
      exists (e :: l). split; [constructor; auto|]. split; [cbn; congruence|].
      intros x A. change (e :: l) with ([e] ++ l). rewrite compare_addr_app, orb_true_iff, Me, M by auto.
      split; [intros [?|?]; [left|right]; auto|]. intro EX; inversion EX; subst; auto. }
  destruct X as (l & F & LN & M). exists l. split; auto. apply expand_listed. eauto.
Qed.

Theorem cidr_zero_refused ip a b c d : ipv4_text ip a b c d -> zlen ip <= 15 ->
  expand_acc_int_list (ip ++ $ "/0") = None.
Proof.
  intros H L. destruct (ipv4_first _ _ _ _ _ H) as (x0 & r0 & E0 & D0).
  assert (NC : ~ In comma (ip ++ $ "/0")).
  { intro I. apply in_app_or in I. destruct I as [I|I]; [eapply ipv4_no_comma; eauto|].
    revert I; vm_compute; intuition discriminate. }
  pose proof (expand_all ACCESS_BUF_LEN add_int_ent [ip ++ $ "/0"] [] ltac:(discriminate) ltac:(constructor; auto)) as X.
  cbn [join all] in X. unfold expand_acc_int_list. rewrite X. unfold one.
  rewrite (skip_space_unique (ip ++ $ "/0") [] (ip ++ $ "/0") eq_refl).
  2: constructor.
  2:{ rewrite E0. cbn. unfold blank. unfold digit in D0. lia. }
  destruct (zlen (ip ++ $ "/0") + 1 >=? ACCESS_BUF_LEN); [reflexivity|].
  unfold add_int_ent. rewrite (digit_first_not_any _ x0 (r0 ++ $ "/0")) by (rewrite ?E0; auto).
  unfold split_entry. change ($ "/0") with (["/"%byte] ++ ["0"%byte]).
  rewrite index_of_app_slash by (eapply ipv4_no_slash; eauto).
  destruct (Z.of_nat (length ip) >=? MAX_IPV4_STR_LEN); [reflexivity|].
  destruct (take_drop_slash ip ["0"%byte]) as [T D]. rewrite D.
  vm_compute (parse_mask _). reflexivity.
Qed.

(** ** Ports *)

Lemma strtol_wrapper_iff s min max v : integer_text s v -> -2147483648 <= v < 2147483648 -> 0 <= max ->
  forall w, strtol_wrapper s min max = (w, STRTOL_OK) <-> (w = v /\ min <= v <= max).
Proof.
  intros I R M w. destruct (strtol_wrapper s min max) as [w' e] eqn:E.
  destruct (strtol_wrapper_reads s min max v I R _ _ E) as [-> X]. split.
  - intro Q; inversion Q; subst. destruct X as [X _]. specialize (X eq_refl). split; auto. lia.
  - intros [-> B]. destruct X as [_ X]. rewrite X by lia. reflexivity.
Qed.

Lemma parse_port_entry it proto port : port_entry it proto port ->
  parse_proto_and_port it = Some (proto, port).
Proof.
  intros (p & ds & -> & LP & PR & I & B). unfold parse_proto_and_port.
  assert (NS : ~ In "/"%byte p).
  { intro IN. assert (IN' : In (tolower "/"%byte) (lower p)) by (rewrite lower_tolower; apply in_map; auto).
    destruct PR as [[PR _] | [PR _]]; rewrite PR in IN'; revert IN'; vm_compute; intuition discriminate. }
  rewrite index_of_app_slash by auto. unfold ACCESS_BUF_LEN. change (Z.of_nat (length p)) with (zlen p).
  replace (zlen p + 1 >=? 33) with false by lia.
  destruct (take_drop_slash p ds) as [T D]. unfold zlen. rewrite T, D.
  rewrite (proj2 (strtol_wrapper_iff ds 0 MAX_PORT port I ltac:(lia) ltac:(unfold MAX_PORT; lia) port)).
  2:{ unfold MAX_PORT. lia. }
  destruct PR as [[PR ->] | [PR ->]].
  - rewrite (proj2 (strcaseeq_lower p ($ "tcp"))) by (rewrite PR; reflexivity). reflexivity.
  - replace (strcaseeq p ($ "tcp")) with false.
    + rewrite (proj2 (strcaseeq_lower p ($ "udp"))) by (rewrite PR; reflexivity). reflexivity.
    + symmetry. unfold strcaseeq. apply bseq_neq. rewrite <- !lower_tolower. rewrite PR. discriminate.
Qed.

(** Port texts short enough not to overflow an int. *)
Lemma index_of_split c s k : index_of c s = Some k -> s = firstn k s ++ [c] ++ skipn (S k) s /\ ~ In c (firstn k s) /\ length (firstn k s) = k.
Proof.
  revert k. induction s as [|x s IH]; intros k E; cbn in E; [discriminate|].
  destruct (beq_spec x c) as [->|N].
  - inversion E; subst. cbn. auto.
  - destruct (index_of c s) as [i|]; [|discriminate]. inversion E; subst.
    destruct (IH i eq_refl) as (E1 & N1 & L1). cbn. repeat split.
    + f_equal. exact E1.
    + intros [X|X]; [congruence|auto].
    + f_equal; auto.
Qed.

Lemma parse_port_inv it proto port : parse_proto_and_port it = Some (proto, port) ->
  (forall p ds n, it = p ++ ["/"%byte] ++ ds -> ~ In "/"%byte p -> integer_text ds n -> -2147483648 <= n < 2147483648) ->
  port_entry it proto port.
Proof.
  unfold parse_proto_and_port. destruct (index_of "/"%byte it) as [k|] eqn:E; [|discriminate].
  destruct (index_of_split _ _ _ E) as (ES & NS & LK).
  remember (firstn k it) as p eqn:Ep. remember (skipn (S k) it) as ds eqn:Eds.
  unfold ACCESS_BUF_LEN. destruct (Z.of_nat k + 1 >=? 33) eqn:LB; [discriminate|].
  unfold zdrop, ztake. rewrite Nat2Z.id. rewrite <- Ep. replace (Z.to_nat (Z.of_nat k + 1)) with (S k) by lia. rewrite <- Eds.
  intros H SM. destruct (integer_text_exists ds) as [n I].
  specialize (SM p ds n ES NS I).
  destruct (strtol_wrapper ds 0 MAX_PORT) as [v e] eqn:W.
  destruct (strtol_wrapper_reads ds 0 MAX_PORT n I SM _ _ W) as [-> X].
  destruct e; try discriminate. destruct X as [X _]. specialize (X eq_refl). unfold MAX_PORT in X.
  exists p, ds. split; [exact ES|]. split; [unfold zlen; lia|].
  destruct (strcaseeq p ($ "tcp")) eqn:C1.
  { inversion H; subst. split; [left|split; auto; lia]. apply strcaseeq_lower in C1. auto. }
  destruct (strcaseeq p ($ "udp")) eqn:C2; [|discriminate].
  inversion H; subst. split; [right|split; auto; lia]. apply strcaseeq_lower in C2. auto.
Qed.

Lemma same_port_eq a b : same_port a b = true <-> a = b.
Proof.
  unfold same_port. destruct a as [a1 a2], b as [b1 b2]; cbn [fst snd]. rewrite andb_true_iff, !Z.eqb_eq.
  split; [intros [-> ->]; auto|intro E; inversion E; auto].
Qed.

Lemma compare_any_iff inl ac : compare_port_list_any inl ac = true <-> (inl = [] \/ exists p, In p inl /\ In p ac).
Proof.
  unfold compare_port_list_any.
  assert (X : existsb (fun p => existsb (same_port p) ac) inl = true <-> exists p, In p inl /\ In p ac).
  { rewrite existsb_exists. split.
    - intros (p & I & E). rewrite existsb_exists in E. destruct E as (q & I' & E). apply same_port_eq in E; subst. eauto.
    - intros (p & I & I'). exists p. split; auto. rewrite existsb_exists. exists p. split; auto. apply same_port_eq; auto. }
  destruct (existsb _ inl) eqn:E.
  - split; auto. intros _. right. apply X; auto.
  - destruct (zlen inl =? 0) eqn:ZZ.
    + split; auto. intros _. left. apply zlen_zero. lia.
    + split; [discriminate|]. intros [->|H]; [discriminate|]. apply X in H. discriminate.
Qed.

Lemma count_one p ac : NoDup ac -> zlen (filter (same_port p) ac) = if existsb (same_port p) ac then 1 else 0.
Proof.
  induction 1 as [|q ac NI ND IH]; [reflexivity|]. cbn. destruct (same_port p q) eqn:E.
  - apply same_port_eq in E; subst q. cbn [orb]. rewrite zlen_cons, IH.
    destruct (existsb (same_port p) ac) eqn:E2; [|reflexivity]. exfalso. apply NI.
    rewrite existsb_exists in E2. destruct E2 as (r & I & E2). apply same_port_eq in E2; subst; auto.
  - exact IH.
Qed.

Lemma count_le inl ac : NoDup ac -> 0 <= count_matches inl ac <= zlen inl.
Proof.
  intro ND. induction inl as [|p r IH]; [vm_compute; split; discriminate|]. cbn [count_matches]. rewrite zlen_cons, count_one by auto.
  destruct (existsb _ _); lia.
Qed.

Lemma compare_all_iff inl ac : NoDup ac ->
  (compare_port_list_all inl ac = true <-> forall p, In p inl -> In p ac).
Proof.
  intro ND. unfold compare_port_list_all. rewrite Z.eqb_eq.
  induction inl as [|p r IH]; [cbn; split; auto; tauto|].
  cbn [count_matches]. rewrite zlen_cons, count_one by auto.
  pose proof (count_le r ac ND). destruct (existsb (same_port p) ac) eqn:E.
  - rewrite existsb_exists in E. destruct E as (q & I & E). apply same_port_eq in E; subst q.
    split.
    + intros X q [->|Q]; auto. apply IH; auto. lia.
    + intro X. assert (zlen r = count_matches r ac) by (apply IH; intros; apply X; right; auto). lia.
  - split; [intro; lia|]. intro X. exfalso.
    assert (existsb (same_port p) ac = true); [|congruence].
    rewrite existsb_exists. exists p. split; [apply X; left; auto|]. apply same_port_eq; auto.
Qed.

(** The request parser. *)
Definition req_one (r : bytes) : option (Z * Z) :=
  if zlen r + 1 >=? ACCESS_BUF_LEN then None else add_port_list_ent r.

Fixpoint req_all (raws : list bytes) : option (list (Z * Z)) :=
  match raws with
  | [] => Some []
  | r :: rs => match req_one r with
               | None => None
               | Some e => match req_all rs with Some l => Some (e :: l) | None => None end
               end
  end.

Lemma split_request_run w : ~ In comma w -> forall t cur ctr l,
  split_request (w ++ t) cur ctr l = split_request t (cur ++ w) (ctr + zlen w) l.
Proof.
  induction w as [|c w IH]; intros N t cur ctr l; [rewrite app_nil_r, zlen_nil, Z.add_0_r; reflexivity|].
  cbn [app split_request]. destruct (beq_spec c comma) as [->|D]; [exfalso; apply N; left; auto|].
  rewrite IH by (intro; apply N; right; auto). rewrite <- app_assoc, zlen_cons. f_equal. lia.
Qed.

Lemma split_request_all raws : forall ctr l, 0 <= ctr <= 1 -> raws <> [] -> Forall (fun r => ~ In comma r) raws ->
  split_request (join [comma] raws) [] ctr l =
    match req_all raws with Some l' => Some (l ++ l') | None => None end.
Proof.
  induction raws as [|r rs IH]; intros ctr l C N F; [congruence|]. inversion F; subst.
  assert (G : (ctr + zlen r >=? ACCESS_BUF_LEN) || (zlen r + 1 >=? ACCESS_BUF_LEN) = (zlen r + 1 >=? ACCESS_BUF_LEN)).
  { unfold ACCESS_BUF_LEN. lia. }
  destruct rs as [|r2 rs].
  - cbn [join]. rewrite <- (app_nil_r r) at 1. rewrite split_request_run by auto. cbn [app split_request req_all].
    rewrite G. unfold req_one. destruct (zlen r + 1 >=? ACCESS_BUF_LEN); [reflexivity|].
    destruct (add_port_list_ent r); reflexivity.
  - rewrite join_cons by discriminate. rewrite split_request_run by auto. cbn [app split_request].
    change (beq comma comma) with true. cbn match. rewrite G.
    cbn [req_all]. unfold req_one at 1.
    destruct (zlen r + 1 >=? ACCESS_BUF_LEN); [reflexivity|].
    destruct (add_port_list_ent r) as [e|]; [|reflexivity].
    rewrite IH by (auto; try lia; discriminate). cbn [req_all].
    destruct (req_one r2); [|reflexivity]. destruct (req_all rs); [|reflexivity].
    rewrite <- app_assoc. reflexivity.
Qed.

Lemma req_all_forall2 raws l : req_all raws = Some l <-> Forall2 (fun r e => req_one r = Some e) raws l.
Proof.
  revert l. induction raws as [|r rs IH]; intro l; cbn.
  - split; [intro E; inversion E; constructor|intro H; inversion H; reflexivity].
  - split.
    + destruct (req_one r) eqn:E1; [|discriminate]. destruct (req_all rs) eqn:E2; [|discriminate].
      intro E; inversion E; subst. constructor; auto. apply IH; auto.
    + intro H; inversion H; subst. rewrite H2. apply IH in H4. rewrite H4. reflexivity.
Qed.

Lemma port_entries_sound raws l :
  (forall r, In r raws -> small_numbers r) ->
  Forall2 (fun r e => req_one r = Some e) raws l ->
  Forall2 (fun r e => port_entry r (fst e) (snd e)) raws l.
Proof.
  intros SM H. induction H as [|r [pr po] raws l H HH IH]; constructor.
  - unfold req_one in H. destruct (_ >=? _); [discriminate|].
    apply parse_port_inv; auto. intros p ds n E _ I. apply (SM r (or_introl eq_refl) p ds [] n); auto.
    rewrite app_nil_r. exact E.
  - apply IH. intros r' I. apply SM. right; auto.
Qed.

Lemma small_numbers_part s raws : s = join [comma] raws -> small_numbers s -> forall r, In r raws -> small_numbers r.
Proof.
  intros -> SM r I. assert (X : exists a b, join [comma] raws = a ++ r ++ b).
  { clear SM. induction raws as [|x raws IH]; [destruct I|].
    destruct raws as [|y raws].
    - destruct I as [->|[]]. exists [], []. cbn. rewrite app_nil_r. reflexivity.
    - rewrite join_cons by discriminate. destruct I as [->|I].
      + exists [], ([comma] ++ join [comma] (y :: raws)). reflexivity.
      + destruct (IH I) as (a & b & E). exists (x ++ [comma] ++ a), b. rewrite E, !app_assoc. reflexivity. }
  destruct X as (a & b & E). intros a' ds b' n E' IT.
  apply (SM (a ++ a') ds (b' ++ b) n); auto. rewrite E, E'. rewrite <- !app_assoc. reflexivity.
Qed.

Theorem port_check open restricted s :
  acc_check_port_access open restricted s = true ->
  exists items pl, comma_separated s items /\
    Forall2 (fun it e => add_port_list_ent it = Some e /\ zlen it <= 31) items pl /\
    (forall p, In p pl -> ~ In p restricted) /\
    (open <> [] -> NoDup open -> forall p, In p pl -> In p open).
Proof.
  destruct (split_exists s) as (raws & E & N & F). unfold acc_check_port_access.
  rewrite E, split_request_all by (auto; lia). cbn [app].
  destruct (req_all raws) as [pl|] eqn:R; [|discriminate].
  apply req_all_forall2 in R. intro H. exists raws, pl.
  split; [repeat split; auto|]. split; [|split].
  - clear - R. induction R as [|r e raws pl R _ IH]; constructor; auto. unfold req_one, ACCESS_BUF_LEN in R.
    destruct (zlen r + 1 >=? 33) eqn:Q; [discriminate|]. split; auto. lia.
  - intros p I IR. destruct (negb (zlen restricted =? 0)) eqn:NR.
    + cbn [andb] in H. replace (compare_port_list_any pl restricted) with true in H; [discriminate|].
      symmetry. apply compare_any_iff. right. eauto.
    + destruct restricted; [destruct IR|]. rewrite zlen_cons in NR. pose proof (zlen_nonneg restricted). lia.
  - intros NO ND. destruct (negb (zlen restricted =? 0) && compare_port_list_any pl restricted); [discriminate|].
    destruct (negb (zlen open =? 0)) eqn:NO2.
    + cbn [andb] in H. destruct (compare_port_list_all pl open) eqn:C; [|discriminate].
      apply compare_all_iff; auto.
    + destruct open; [congruence|]. rewrite zlen_cons in NO2. pose proof (zlen_nonneg open). lia.
Qed.

Theorem port_check_complete open restricted s items pl :
  comma_separated s items ->
  Forall2 (fun it e => port_entry it (fst e) (snd e) /\ zlen it <= 31) items pl ->
  (forall p, In p pl -> ~ In p restricted) ->
  (open <> [] -> forall p, In p pl -> In p open) -> NoDup open ->
  acc_check_port_access open restricted s = true.
Proof.
  intros (E & N & F) H NR HO ND. unfold acc_check_port_access.
  rewrite E, split_request_all by (auto; lia). cbn [app].
  assert (R : req_all items = Some pl).
  { apply req_all_forall2. clear - H. induction H as [|r [a b] items pl [P L] _ IH]; constructor; auto.
    unfold req_one, ACCESS_BUF_LEN. replace (zlen r + 1 >=? 33) with false by lia.
    apply parse_port_entry; auto. }
  rewrite R.
  assert (NP : pl <> []).
  { intros ->. inversion H; subst. congruence. }
  assert (C : compare_port_list_any pl restricted = false).
  { apply not_true_is_false. intro C. apply compare_any_iff in C. destruct C as [C|(p & I & I')]; [auto|].
    apply (NR p); auto. }
  rewrite C, andb_false_r.
  destruct open as [|o1 open]; [reflexivity|].
  rewrite (proj2 (compare_all_iff pl (o1 :: open) ND)); [rewrite andb_false_r; reflexivity|].
  apply HO. discriminate.
Qed.

Theorem expand_port_one it proto port : port_entry it proto port -> zlen it <= 31 -> ~ In comma it -> ~ blank (hd x00 it) ->
  expand_acc_port_list it = Some [(proto, port)].
Proof.
  intros P L NC NB. apply expand_one; auto. unfold one. rewrite (skip_space_unique it [] it eq_refl) by auto.
  unfold ACCESS_BUF_LEN. replace (zlen it + 1 >=? 33) with false by lia. apply parse_port_entry; auto.
Qed.

(** Port lists: what is accepted is what is listed. *)
Theorem expand_port_list_ok s items pl :
  listed s items -> Forall2 (fun it e => port_entry it (fst e) (snd e) /\ zlen it <= 31) items pl ->
  expand_acc_port_list s = Some pl.
Proof.
  intros L H. apply (expand_listed ACCESS_BUF_LEN add_port_list_ent s pl). exists items. split; auto.
  destruct L as (raws & _ & _ & F & FF). clear - H F FF. revert pl H.
  induction FF; intros pl H0; inversion H0; subst; constructor; inversion F; subst; auto.
  destruct y0 as [a b]. destruct H3 as [P LN]. destruct H as (sp & -> & B & NB).
  apply expand_port_one; auto. intro; apply H4; apply in_or_app; auto.
Qed.

Theorem expand_port_list_inv s pl : small_numbers s -> expand_acc_port_list s = Some pl ->
  exists items, listed s items /\ Forall2 (fun it e => port_entry it (fst e) (snd e) /\ zlen it <= 31) items pl.
Proof.
  intros SM E. pose proof (proj1 (expand_listed ACCESS_BUF_LEN add_port_list_ent s pl) E) as (items & L & H).
  exists items. split; auto. destruct L as (raws & ES & _ & F & FF).
  pose proof (small_numbers_part s raws ES SM) as SP. clear - H FF F SP. revert pl H.
  induction FF; intros pl H0; inversion H0; subst; constructor.
  - inversion F; subst. destruct y0 as [a b]. destruct H as (sp & E1 & B & NB).
    assert (NC : ~ In comma y). { intro I; match goal with N : ~ In comma x |- _ => apply N end; rewrite E1; apply in_or_app; auto. }
    apply expand_one in H3; auto. unfold one in H3. rewrite (skip_space_unique y [] y eq_refl) in H3 by auto.
    unfold ACCESS_BUF_LEN in H3. destruct (zlen y + 1 >=? 33) eqn:LY; [discriminate|]. split; [|lia].
    apply parse_port_inv; auto. intros p ds n E2 _ I.
    apply (SP x (or_introl eq_refl) (sp ++ p) ds [] n); auto. rewrite app_nil_r, E1, E2, <- app_assoc. reflexivity.
  - inversion F; subst. apply IHFF; auto. intros r I. apply SP. right; auto.
Qed.

Lemma proto_port_entry it : proto_port it -> exists e, port_entry it (fst e) (snd e) /\ zlen it <= 31.
Proof.
  intros (p & ds & P & -> & L & D & R).
  assert (IT : integer_text ds (decimal ds)).
  { exists [], ds. split; [reflexivity|]. split; [constructor|].
    destruct ds as [|x ds']; [revert L; vm_compute; intros [X _]; exfalso; apply X; reflexivity|]. inversion D; subst. unfold digit in H1.
    split; [cbn; unfold blank; lia|]. right. right. cbn [hd]. split; [|split].
    - intros ->. revert H1. vm_compute. intros [X _]. apply X. reflexivity.
    - intros ->. revert H1. vm_compute. intros [X _]. apply X. reflexivity.
    - exists (x :: ds'), []. rewrite app_nil_r. repeat split; auto. }
  exists (if bseq p ($ "tcp") then (6, decimal ds) else (17, decimal ds)). split.
  - exists p, ds. split; [reflexivity|]. destruct P as [-> | ->].
    + change (bseq ($ "tcp") ($ "tcp")) with true. cbn [fst snd].
      split; [vm_compute; congruence|]. split; [left; auto|]. split; [auto|lia].
    + change (bseq ($ "udp") ($ "tcp")) with false. cbn [fst snd].
      split; [vm_compute; congruence|]. split; [right; auto|]. split; [auto|lia].
  - rewrite !zlen_app. change (zlen ["/"%byte]) with 1. destruct P as [-> | ->]; vm_compute (zlen ($ _)); lia.
Qed.

Lemma port_entry_unique it a b a' b' : port_entry it a b -> port_entry it a' b' -> a = a' /\ b = b'.
Proof. intros H H'. apply parse_port_entry in H, H'. rewrite H in H'. inversion H'; auto. Qed.

Lemma odd_mask_aton it : odd_mask it ->
  match index_of "/"%byte it with Some k => inet_aton (skipn (S k) it) = Some 32 | None => False end.
Proof.
  intros (ip & m & -> & N & H). rewrite index_of_app_slash by auto.
  pose proof (proj2 (take_drop_slash ip m)) as D. unfold zdrop in D.
  replace (Z.to_nat (Z.of_nat (length ip) + 1)) with (S (length ip)) in D by lia. rewrite D.
  exact (proj1 (inet_aton_text _ _ _ _ _ H)).
Qed.

Lemma small_numbers_short s : zlen s <= 9 -> small_numbers s.
Proof.
  intros L a ds b n -> (sp & body & -> & _ & _ & H).
  assert (B : zlen body <= 8).
  { rewrite !zlen_app in L. change (zlen ["/"%byte]) with 1 in L.
    pose proof (zlen_nonneg a). pose proof (zlen_nonneg b). pose proof (zlen_nonneg sp). lia. }
  assert (X : forall r m, leading r m -> zlen r <= 8 -> 0 <= m < 100000000).
  { intros r m (d & rest & -> & D & _ & ->) LR. rewrite zlen_app in LR. pose proof (zlen_nonneg rest).
    pose proof (decimal_bound d D). assert (10 ^ zlen d <= 10 ^ 8) by (apply Z.pow_le_mono_r; lia).
    change (10 ^ 8) with 100000000 in *. lia. }
  destruct H as [(r & m & E & H & ->) | [(r & E & H) | (_ & _ & H)]].
  - rewrite E, zlen_cons in B. apply X in H; lia.
  - rewrite E, zlen_cons in B. apply X in H; lia.
  - apply X in H; lia.
Qed.
