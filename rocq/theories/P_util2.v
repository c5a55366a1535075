(** More proofs about common/: host names, argument splitting, bounded copies, wiping. *)
From Verif Require Import P_bytes M_util S_text P_util.
From Coq Require Import Init.Byte List ZArith Lia Bool.
Import ListNotations.
Open Scope Z_scope.

Lemma isalnum_lod c : isalnum c = true <-> letter_or_digit c.
Proof. unfold isalnum, isalpha, isupper, islower, isdigit, letter_or_digit, digit. lia. Qed.

Definition lchar (c : byte) : Prop := letter_or_digit c \/ c = "-"%byte.

Inductive hostI : bytes -> Prop :=
| HI1 l : label l -> hostI l
| HI2 l : label l -> hostI (l ++ ["."%byte])
| HI3 l r : label l -> hostI r -> hostI (l ++ ["."%byte] ++ r).

Lemma hostI_hostname s : hostI s <-> hostname s.
Proof.
  split.
  - induction 1 as [l H|l H|l r H Hr IH].
    + exists [l]. split; [discriminate|]. split; [auto|]. left; reflexivity.
    + exists [l]. split; [discriminate|]. split; [auto|]. right; reflexivity.
    + destruct IH as (ls & N & F & E). exists (l :: ls). split; [discriminate|]. split; [auto|].
      destruct ls as [|x ls]; [congruence|].
      destruct E as [->| ->]; [left|right]; cbn [join]; rewrite <- ?app_assoc; reflexivity.
  - intros (ls & N & F & E). revert s E. induction ls as [|l ls IH]; [congruence|]. intros s E.
    inversion F; subst. destruct ls as [|x ls].
    + destruct E as [->| ->]; cbn [join]; [apply HI1|apply HI2]; auto.
    + assert (N' : x :: ls <> []) by discriminate.
      destruct E as [->| ->]; cbn [join]; rewrite <- ?app_assoc; apply HI3; auto; apply (IH N' H2); auto.
Qed.

Definition acc_host (r : option (Z * option byte)) : Prop :=
  match r with
  | Some (k, Some c) => c <> "-"%byte /\ k <= 63
  | _ => False
  end.

Lemma lod_not_dot c : letter_or_digit c -> c <> "."%byte /\ c <> "-"%byte /\ c <> x00.
Proof.
  unfold letter_or_digit, digit. intro H.
  repeat split; intros ->; [change (bv "."%byte) with 46 in H|change (bv "-"%byte) with 45 in H|change (bv x00) with 0 in H]; lia.
Qed.

Lemma last_app1 (l : bytes) c d : last (l ++ [c]) d = c.
Proof. induction l as [|x l IH]; [reflexivity|]. cbn [app]. destruct (l ++ [c]) eqn:E; [destruct l; discriminate|]. exact IH. Qed.

Definition prev_ok (L : bytes) (prev : option byte) : Prop :=
  match L with [] => prev = None \/ prev = Some "."%byte | _ => prev = Some (last L x00) end.

Lemma host_sound s : forall L prev,
  prev_ok L prev -> Forall lchar L -> (L <> [] -> letter_or_digit (hd x00 L)) ->
  acc_host (hostname_scan (length s) s prev (zlen L)) ->
  (L ++ s = [] /\ prev = Some "."%byte) \/ hostI (L ++ s).
Proof.
  induction s as [|c s IH]; intros L prev HP F Hd A.
  - cbn in A. rewrite app_nil_r. destruct L as [|x L].
    + cbn in HP. destruct HP as [-> | ->]; cbn in A; [tauto|]. left; auto.
    + right. apply HI1. rewrite HP in A. destruct A as [A1 A2].
      split; [|split; [exact F|split; [apply Hd; discriminate|]]].
      * rewrite zlen_cons in *. pose proof (zlen_nonneg L). lia.
      * assert (I : In (last (x :: L) x00) (x :: L)).
        { destruct (exists_last (l := x :: L)) as (l' & a & E); [discriminate|]. rewrite E, last_app1, in_app_iff. right; left; auto. }
        rewrite Forall_forall in F. apply F in I. destruct I as [I|I]; [auto|congruence].
  - cbn [length hostname_scan] in A.
    destruct (beq_spec c x00); [destruct A|].
    destruct (zlen L =? 0) eqn:Z0.
    + assert (L = []) by (apply zlen_zero; lia). subst L.
      destruct (isalnum c) eqn:AL; [|destruct A]. cbn [negb] in A.
      apply isalnum_lod in AL.
      destruct (beq_spec c "."%byte) as [->|ND]; [apply lod_not_dot in AL; tauto|].
      destruct (IH [c] (Some c)) as [[? ?]|H]; cbn; auto.
      * constructor; [left; auto|constructor].
      * discriminate.
    + destruct (isalnum c || beq c "."%byte || beq c "-"%byte) eqn:CH; [|destruct A].
      cbn [negb] in A.
      assert (NL : L <> []) by (intros ->; change (zlen []) with 0 in Z0; discriminate).
      assert (PL : prev = Some (last L x00)) by (destruct L; [congruence|exact HP]).
      destruct (beq_spec c "."%byte) as [->|ND].
      * destruct (zlen L >? 63) eqn:E63; [destruct A|]. rewrite PL in A.
        destruct (isalnum (last L x00)) eqn:AL; [|destruct A]. apply isalnum_lod in AL.
        assert (LB : label L).
        { split; [pose proof (zlen_nonneg L); lia|]. split; [exact F|]. split; auto. }
        right. destruct (IH [] (Some "."%byte)) as [[E _]|H]; cbn; auto; try tauto.
        -- cbn in E. subst s. apply HI2; auto.
        -- cbn in H. apply HI3; auto.
      * assert (LC : lchar c).
        { destruct (isalnum c) eqn:AL; [left; apply isalnum_lod; auto|].
          cbn [orb] in CH. destruct (beq_spec c "-"%byte); [right; auto|].
          destruct (beq_spec c "."%byte); [congruence|]. discriminate. }
        destruct (IH (L ++ [c]) (Some c)) as [[E _]|H].
        -- unfold prev_ok. destruct (L ++ [c]) eqn:E; [destruct L; discriminate|].
           rewrite <- E, last_app1. auto.
        -- apply Forall_app; split; auto.
        -- intros _. destruct L; [congruence|]. cbn. apply Hd. discriminate.
        -- rewrite zlen_app. change (zlen [c]) with 1. exact A.
        -- destruct L; discriminate.
        -- right. rewrite <- app_assoc in H. exact H.
Qed.

Lemma scan_label l : forall n t prev k, 0 <= k ->
  Forall lchar l -> (k = 0 -> l <> [] -> letter_or_digit (hd x00 l)) ->
  hostname_scan (length l + n) (l ++ t) prev k =
  hostname_scan n t (match l with [] => prev | _ => Some (last l x00) end) (k + zlen l).
Proof.
  induction l as [|c l IH]; intros n t prev k Hk F Hd.
  - cbn [length app plus]. change (zlen []) with 0. f_equal; lia.
  - inversion F; subst. cbn [length app plus hostname_scan].
    assert (NZ : beq c x00 = false).
    { apply beq_neq. destruct H1 as [H1|H1]; [apply lod_not_dot in H1; tauto|subst; discriminate]. }
    assert (ND : beq c "."%byte = false).
    { apply beq_neq. destruct H1 as [H1|H1]; [apply lod_not_dot in H1; tauto|subst; discriminate]. }
    rewrite NZ, ND.
    assert (C : (if k =? 0 then negb (isalnum c) else negb (isalnum c || false || beq c "-"%byte)) = false).
    { destruct (k =? 0) eqn:E.
      - specialize (Hd ltac:(lia) ltac:(discriminate)). cbn in Hd. apply isalnum_lod in Hd. rewrite Hd. reflexivity.
      - destruct H1 as [H1|H1]; [apply isalnum_lod in H1; rewrite H1; reflexivity|].
        subst. rewrite beq_refl. rewrite orb_true_r. reflexivity. }
    rewrite C. rewrite IH; auto; [|lia|lia].
    rewrite zlen_cons. f_equal; [|lia]. destruct l; reflexivity.
Qed.

Lemma host_complete s : hostI s -> forall prev,
  acc_host (hostname_scan (length s) s prev 0).
Proof.
  assert (LN : forall l, label l -> l <> []).
  { intros l [H _] ->. change (zlen []) with 0 in H. lia. }
  induction 1 as [l H|l H|l r H Hr IH]; intro prev.
  - pose proof (LN l H). destruct H as (H1 & H2 & H3 & H4).
    rewrite <- (Nat.add_0_r (length l)), <- (app_nil_r l) at 1.
    rewrite app_nil_r at 1.
    replace (hostname_scan (length l + 0) l prev 0) with (hostname_scan (length l + 0) (l ++ []) prev 0) by (rewrite app_nil_r; reflexivity).
    rewrite scan_label; auto; [|lia]. destruct l as [|c l]; [congruence|]. cbn [hostname_scan acc_host].
    split; [|lia]. apply lod_not_dot in H4. tauto.
  - pose proof (LN l H). destruct H as (H1 & H2 & H3 & H4). rewrite app_length.
    rewrite scan_label; auto; [|lia]. destruct l as [|c l]; [congruence|].
    cbn [length hostname_scan]. rewrite beq_refl. change (beq "."%byte x00) with false. cbv iota.
    destruct (0 + zlen (c :: l) =? 0) eqn:E; [lia|].
    rewrite orb_true_r. cbn [orb negb].
    destruct (0 + zlen (c :: l) >? 63) eqn:E2; [lia|].
    apply isalnum_lod in H4. rewrite H4. cbn. split; [discriminate|lia].
  - pose proof (LN l H). destruct H as (H1 & H2 & H3 & H4). rewrite app_length.
    rewrite scan_label; auto; [|lia]. destruct l as [|c l]; [congruence|].
    cbn [length app hostname_scan]. rewrite beq_refl. change (beq "."%byte x00) with false. cbv iota.
    destruct (0 + zlen (c :: l) =? 0) eqn:E; [lia|].
    rewrite orb_true_r. cbn [orb negb].
    destruct (0 + zlen (c :: l) >? 63) eqn:E2; [lia|].
    apply isalnum_lod in H4. rewrite H4. apply IH.
Qed.

Theorem is_valid_hostname_iff s : s <> [] ->
  is_valid_hostname s (zlen s) = Ok true <-> (hostname s /\ zlen s <= 254).
Proof.
  intro N. unfold is_valid_hostname. rewrite <- hostI_hostname.
  destruct (zlen s >? 254) eqn:E; [split; [discriminate|intros [_ ?]; lia]|].
  replace (Z.to_nat (zlen s)) with (length s) by (unfold zlen; lia).
  split.
  - intro H. split; [|lia].
    destruct (host_sound s [] None) as [[X _]|X]; cbn; auto; try tauto.
    change (zlen (@nil byte)) with 0.
    destruct (hostname_scan (length s) s None 0) as [[k [c|]]|]; try discriminate.
    destruct (beq_spec c "-"%byte); [discriminate|].
    destruct (k >? 63) eqn:K; [discriminate|]. cbn. split; [auto|lia].
  - intros [H _]. pose proof (host_complete s H None) as A.
    destruct (hostname_scan (length s) s None 0) as [[k [c|]]|]; cbn in A; try tauto.
    destruct A as [A B]. apply beq_neq in A. rewrite A.
    destruct (k >? 63) eqn:K; [lia|reflexivity].
Qed.

Theorem is_valid_hostname_empty_fault : is_valid_hostname [] 0 = Fault.
Proof. reflexivity. Qed.

Lemma hostname_nofault s : s <> [] -> is_valid_hostname s (zlen s) <> Fault.
Proof.
  intro N. unfold is_valid_hostname. destruct (zlen s >? 254); [discriminate|].
  assert (X : forall s n prev k k', s <> [] -> n <> O -> hostname_scan n s prev k <> Some (k', None)).
  { clear. induction s as [|c s IH]; intros n prev k k' N Hn; [congruence|].
    destruct n as [|n]; [congruence|]. cbn [hostname_scan].
    destruct (beq c x00); [discriminate|].
    destruct (if k =? 0 then _ else _); [discriminate|].
    assert (Y : forall k, hostname_scan n s (Some c) k <> Some (k', None)).
    { intro k1. destruct n as [|n]; [cbn; discriminate|]. destruct s; [cbn; discriminate|]. apply IH; discriminate. }
    destruct (beq c "."%byte); [|apply Y].
    destruct (k >? 63); [discriminate|]. destruct prev as [p|]; [|discriminate].
    destruct (isalnum p); [apply Y|discriminate]. }
  replace (Z.to_nat (zlen s)) with (length s) by (unfold zlen; lia).
  destruct (hostname_scan (length s) s None 0) as [[k [c|]]|] eqn:E; try discriminate.
  - destruct (beq c "-"%byte); [discriminate|]. destruct (k >? 63); discriminate.
  - exfalso. eapply X; [exact N| |exact E]. destruct s; [congruence|discriminate].
Qed.

(** ** strlcpy, strlcat *)
Lemma strlcpy_loop_spec n : forall src,
  strlcpy_loop n src =
  if (length src <? n)%nat then (src ++ [x00], true) else (firstn n src, false).
Proof.
  induction n as [|n IH]; intro src; [reflexivity|].
  destruct src as [|c r]; [reflexivity|].
  cbn [strlcpy_loop]. rewrite IH. cbn [length].
  change (S (length r) <? S n)%nat with (length r <? n)%nat.
  destruct (length r <? n)%nat; reflexivity.
Qed.

Lemma strlcpy_stores_spec src siz : 0 < siz ->
  strlcpy_stores src siz = ztake (siz - 1) src ++ [x00].
Proof.
  intro H. unfold strlcpy_stores. destruct (siz =? 0) eqn:E; [lia|].
  rewrite strlcpy_loop_spec. unfold ztake.
  destruct (length src <? Z.to_nat (siz - 1))%nat eqn:L; [|reflexivity].
  rewrite firstn_all2 by lia. reflexivity.
Qed.

Lemma strlcpy_spec dst src siz :
  0 < siz <= zlen dst -> no_nul src ->
  let '(dst', r) := strlcpy dst src siz in
  cstr dst' = ztake (siz - 1) src /\ zlen dst' = zlen dst /\
  zdrop siz dst' = zdrop siz dst /\ r = zlen src.
Proof.
  intros H N. unfold strlcpy. rewrite strlcpy_stores_spec by lia.
  set (w := ztake (siz - 1) src).
  assert (Lw : zlen w <= siz - 1).
  { unfold w, ztake, zlen. rewrite firstn_length. lia. }
  pose proof (zlen_nonneg w).
  assert (Nw : no_nul w).
  { unfold w, no_nul, ztake in *. intro I. apply N. rewrite <- (firstn_skipn (Z.to_nat (siz-1)) src).
    apply in_app_iff; auto. }
  split; [rewrite <- app_assoc; apply cstr_app_nul; auto|].
  assert (ZA : zlen (w ++ [x00]) = zlen w + 1) by (rewrite zlen_app; reflexivity).
  split; [|split; [|reflexivity]].
  - rewrite zlen_app, zlen_zdrop, ZA by lia. lia.
  - unfold zdrop. rewrite skipn_app.
    replace (skipn (Z.to_nat siz) (w ++ [x00])) with (@nil byte).
    2:{ symmetry. apply skipn_all2. unfold zlen in *. lia. }
    cbn [app]. rewrite skipn_skipn. f_equal. unfold zlen in *. lia.
Qed.

Lemma cstr_prefix l : exists t, l = cstr l ++ t /\ (t = [] \/ exists u, t = x00 :: u).
Proof.
  induction l as [|c l (t & E & T)]; [exists []; auto|]. cbn [cstr].
  destruct (beq_spec c x00) as [->|].
  - exists (x00 :: l). cbn. eauto.
  - exists t. cbn [app]. rewrite <- E. auto.
Qed.

Lemma strlcat_loop_spec src : forall n, 1 <= n -> strlcat_loop n src = ztake (n - 1) src ++ [x00].
Proof.
  induction src as [|c r IH]; intros n H; cbn [strlcat_loop].
  - unfold ztake. rewrite firstn_nil. reflexivity.
  - destruct (n =? 1) eqn:E.
    + rewrite IH by lia. assert (n = 1) by lia. subst. reflexivity.
    + rewrite IH by lia. unfold ztake. replace (Z.to_nat (n - 1)) with (S (Z.to_nat (n - 1 - 1))) by lia. reflexivity.
Qed.

Lemma strlcat_spec dst src siz :
  0 < siz <= zlen dst -> no_nul src ->
  zlen (cstr dst) < siz ->
  let '(dst', r) := strlcat dst src siz in
  cstr dst' = cstr dst ++ ztake (siz - zlen (cstr dst) - 1) src /\
  zlen (cstr dst') < siz /\
  zlen dst' = zlen dst /\ zdrop siz dst' = zdrop siz dst /\ r = zlen (cstr dst) + zlen src.
Proof.
  intros H N LT. unfold strlcat.
  assert (CT : cstr (ztake siz dst) = cstr dst).
  { destruct (cstr_prefix dst) as (t & E & T).
    pose proof (zlen_nonneg (cstr dst)).
    destruct T as [->|[u ->]].
    - exfalso. rewrite app_nil_r in E. rewrite E in H. lia.
    - set (p := cstr dst) in *. rewrite E. unfold ztake. rewrite firstn_app.
      rewrite firstn_all2 by (unfold zlen in *; lia).
      destruct (Z.to_nat siz - length p)%nat as [|k] eqn:K; [unfold zlen in *; lia|].
      cbn [firstn]. apply cstr_app_nul. apply cstr_no_nul. }
  rewrite CT. destruct (siz - zlen (cstr dst) =? 0) eqn:E0; [lia|].
  rewrite strlcat_loop_spec by lia.
  set (d := cstr dst) in *. pose proof (zlen_nonneg d). pose proof (zlen_nonneg src).
  set (w := ztake (siz - zlen d - 1) src).
  assert (Lw : zlen w <= siz - zlen d - 1).
  { unfold w, ztake, zlen in *. rewrite firstn_length. lia. }
  pose proof (zlen_nonneg w).
  assert (TD : ztake (zlen d) dst = d).
  { destruct (cstr_prefix dst) as (t & E & T). fold d in E. rewrite E at 1. apply ztake_app; auto. }
  rewrite TD.
  assert (Nw : no_nul w).
  { unfold w, no_nul, ztake in *. intro I. apply N. rewrite <- (firstn_skipn (Z.to_nat (siz-zlen d-1)) src).
    apply in_app_iff; auto. }
  assert (C : cstr (d ++ (w ++ [x00]) ++ zdrop (zlen d + zlen (w ++ [x00])) dst) = d ++ w).
  { rewrite <- !app_assoc. rewrite app_assoc. apply cstr_app_nul. apply no_nul_app.
    split; auto. apply cstr_no_nul. }
  rewrite C. split; [reflexivity|].
  assert (ZA : zlen (w ++ [x00]) = zlen w + 1) by (rewrite zlen_app; reflexivity).
  split; [rewrite zlen_app; lia|]. split; [|split; [|reflexivity]].
  - rewrite zlen_app, (zlen_app (w ++ [x00])), ZA, zlen_zdrop by lia. lia.
  - rewrite app_assoc. unfold zdrop. rewrite skipn_app.
    replace (skipn (Z.to_nat siz) (d ++ w ++ [x00])) with (@nil byte).
    2:{ symmetry. apply skipn_all2. rewrite app_length. unfold zlen in *. lia. }
    cbn [app]. rewrite skipn_skipn. f_equal. rewrite app_length. unfold zlen in *. lia.
Qed.

(** ** zero_buf *)
Lemma zero_loop_spec n : forall buf, zero_loop n buf =
  if (n <=? length buf)%nat then Some (repeat x00 n ++ skipn n buf) else None.
Proof.
  induction n as [|n IH]; intros buf; [reflexivity|]. cbn [zero_loop].
  destruct buf as [|c r]; [reflexivity|]. rewrite IH. cbn [length skipn repeat app].
  change (S n <=? S (length r))%nat with (n <=? length r)%nat. destruct (n <=? length r)%nat; reflexivity.
Qed.

Lemma zero_loop_zlen buf len : 0 <= len -> zero_loop (Z.to_nat len) buf =
  if len >? zlen buf then None else Some (repeat x00 (Z.to_nat len) ++ zdrop len buf).
Proof.
  intro H. rewrite zero_loop_spec. unfold zdrop.
  destruct (Z.to_nat len <=? length buf)%nat eqn:E; destruct (len >? zlen buf) eqn:F; auto; unfold zlen in *; lia.
Qed.

Lemma zero_verify len r : 0 <= len -> forallb (beq x00) (ztake len (repeat x00 (Z.to_nat len) ++ r)) = true.
Proof.
  intro H. rewrite ztake_app by (rewrite zlen_repeat; lia).
  apply forallb_forall. intros x I. apply repeat_spec in I. subst. reflexivity.
Qed.

Lemma zero_buf_spec buf len buf' :
  zero_buf buf len = Ok (buf', true) ->
  zlen buf' = zlen buf /\ ztake len buf' = repeat x00 (Z.to_nat len) /\ zdrop len buf' = zdrop len buf.
Proof.
  unfold zero_buf. destruct (len =? 0) eqn:E0.
  - intro H; inversion H; subst. assert (len = 0) by lia. subst. auto.
  - destruct ((len <? 0) || (len >? MAX_SPA_ENCODED_MSG_SIZE)) eqn:E1; [discriminate|].
    rewrite zero_loop_zlen by lia.
    destruct (len >? zlen buf) eqn:E2; [discriminate|]. intro H; inversion H; subst.
    rewrite zlen_app, zlen_repeat, zlen_zdrop by lia. split; [lia|].
    split.
    + apply ztake_app. rewrite zlen_repeat. lia.
    + apply zdrop_app. rewrite zlen_repeat. lia.
Qed.

Lemma zero_buf_fail buf len buf' : zero_buf buf len = Ok (buf', false) ->
  buf' = buf /\ (len < 0 \/ 1500 < len).
Proof.
  unfold zero_buf, MAX_SPA_ENCODED_MSG_SIZE. destruct (len =? 0); [discriminate|].
  destruct ((len <? 0) || (len >? 1500)) eqn:E1.
  - intro H; inversion H; subst. split; auto. lia.
  - rewrite zero_loop_zlen by lia. destruct (len >? zlen buf); [discriminate|].
    rewrite zero_verify by lia. discriminate.
Qed.
Lemma zero_buf_ok buf len : 0 <= len <= 1500 -> len <= zlen buf ->
  exists buf', zero_buf buf len = Ok (buf', true).
Proof.
  intros. unfold zero_buf, MAX_SPA_ENCODED_MSG_SIZE. destruct (len =? 0); [eauto|].
  destruct ((len <? 0) || (len >? 1500)) eqn:E1; [lia|]. rewrite zero_loop_zlen by lia.
  destruct (len >? zlen buf) eqn:E2; [lia|]. rewrite zero_verify by lia. eauto.
Qed.

(** ** strtoargv *)
Lemma isspace_blank c : isspace c = true <-> blank c.
Proof. unfold isspace, blank. lia. Qed.
Lemma isspace_not_blank c : isspace c = false <-> ~ blank c.
Proof. rewrite <- isspace_blank. destruct (isspace c); split; congruence. Qed.

Lemma argv_spaces sp : forall t argv, Forall blank sp ->
  strtoargv_go (sp ++ t) argv [] = strtoargv_go t argv [].
Proof.
  induction sp as [|c sp IH]; intros t argv F; [reflexivity|].
  inversion F; subst. cbn [app strtoargv_go]. apply isspace_blank in H1. rewrite H1. cbn [negb].
  change (zlen (@nil byte) >? 0) with false. cbv iota. apply IH; auto.
Qed.

Lemma argv_word w : forall t argv arg, Forall (fun c => ~ blank c) w ->
  zlen arg + zlen w <= 1024 ->
  strtoargv_go (w ++ t) argv arg = strtoargv_go t argv (arg ++ w).
Proof.
  induction w as [|c w IH]; intros t argv arg F L.
  - rewrite app_nil_r. reflexivity.
  - inversion F; subst. cbn [app strtoargv_go]. apply isspace_not_blank in H1. rewrite H1. cbn [negb].
    rewrite zlen_cons in L. pose proof (zlen_nonneg w). unfold MAX_ARGS_LINE_LEN.
    destruct (zlen arg >=? 1024) eqn:E; [lia|].
    rewrite IH; auto.
    + rewrite <- app_assoc. reflexivity.
    + rewrite zlen_app. change (zlen [c]) with 1. lia.
Qed.

Lemma argv_word_long w : forall t argv arg, Forall (fun c => ~ blank c) w ->
  zlen arg <= 1024 -> 1024 < zlen arg + zlen w ->
  strtoargv_go (w ++ t) argv arg = Fault.
Proof.
  induction w as [|c w IH]; intros t argv arg F L G.
  - change (zlen (@nil byte)) with 0 in G. lia.
  - inversion F; subst. cbn [app strtoargv_go]. apply isspace_not_blank in H1. rewrite H1. cbn [negb].
    rewrite zlen_cons in G. unfold MAX_ARGS_LINE_LEN.
    destruct (zlen arg >=? 1024) eqn:E; [reflexivity|].
    apply IH; auto; rewrite zlen_app; change (zlen [c]) with 1; lia.
Qed.

(** What the code does with the list of words: the first 28 are collected; the 29th makes
    it fail; a word of 1024 or more characters met before that overruns the buffer. *)
Fixpoint argv_result (ws : list bytes) (argv : list bytes) : outcome (option (list bytes)) :=
  match ws with
  | [] => Ok (Some argv)
  | w :: r => if zlen w >=? 1024 then Fault
              else if zlen argv + 1 >=? 29 then Ok None
              else argv_result r (argv ++ [w])
  end.

Lemma strtoargv_go_words s ws : words s ws -> forall argv, strtoargv_go s argv [] = argv_result ws argv.
Proof.
  induction 1 as [s F|sp w t ws Fs Nw Fw T W IH]; intro argv.
  - rewrite <- (app_nil_r s). rewrite argv_spaces by auto. reflexivity.
  - rewrite argv_spaces by auto. cbn [argv_result].
    assert (Lw : 1 <= zlen w).
    { destruct w; [congruence|]. rewrite zlen_cons. pose proof (zlen_nonneg w). lia. }
    destruct (Z_lt_dec 1024 (zlen w)) as [G|G].
    + rewrite argv_word_long; auto; try (change (zlen (@nil byte)) with 0; lia).
      destruct (zlen w >=? 1024) eqn:E; [reflexivity|lia].
    + rewrite argv_word; auto; try (change (zlen (@nil byte)) with 0; lia).
      cbn [app].
      assert (Z1 : zlen (argv ++ [w]) = zlen argv + 1) by (rewrite zlen_app; reflexivity).
      destruct T as [->|B].
      * assert (ws = []).
        { inversion W as [|sp' w' t' ws' _ Nw' _ _ _ E']; auto. destruct sp'; [|discriminate].
          destruct w'; [congruence|discriminate]. }
        subst ws. cbn [strtoargv_go argv_result].
        destruct (zlen w >? 0) eqn:E0; [|lia]. unfold MAX_ARGS_LINE_LEN.
        destruct (zlen w >=? 1024) eqn:E; [reflexivity|].
        unfold add_argv, MAX_CMDLINE_ARGS. rewrite Z1. change (30 - 1) with 29.
        destruct (zlen argv + 1 >=? 29); reflexivity.
      * destruct t as [|c t]; [exfalso; unfold blank in B; cbn in B; change (bv x00) with 0 in B; lia|].
        cbn [hd] in B. apply isspace_blank in B. specialize (IH (argv ++ [w])).
        cbn [strtoargv_go] in IH |- *. rewrite B in IH |- *. cbn [negb] in IH |- *.
        change (zlen (@nil byte) >? 0) with false in IH. cbv iota in IH.
        destruct (zlen w >? 0) eqn:E0; [|lia]. unfold MAX_ARGS_LINE_LEN.
        destruct (zlen w >=? 1024) eqn:E; [reflexivity|].
        unfold add_argv, MAX_CMDLINE_ARGS. rewrite Z1. change (30 - 1) with 29.
        destruct (zlen argv + 1 >=? 29); cbn [negb]; [reflexivity|]. exact IH.
Qed.

Lemma argv_result_ok ws : forall argv, Forall (fun w => zlen w < 1024) ws -> zlen argv < 29 ->
  argv_result ws argv = Ok (if zlen argv + zlen ws <? 29 then Some (argv ++ ws) else None).
Proof.
  induction ws as [|w ws IH]; intros argv F L; cbn [argv_result].
  - change (zlen (@nil bytes)) with 0. rewrite app_nil_r. destruct (zlen argv + 0 <? 29) eqn:E; [reflexivity|lia].
  - inversion F; subst. destruct (zlen w >=? 1024) eqn:E; [lia|]. rewrite zlen_cons.
    pose proof (zlen_nonneg ws).
    destruct (zlen argv + 1 >=? 29) eqn:E2.
    + destruct (zlen argv + (1 + zlen ws) <? 29) eqn:E3; [lia|reflexivity].
    + assert (Z1 : zlen (argv ++ [w]) = zlen argv + 1) by (rewrite zlen_app; reflexivity).
      rewrite IH by (auto; lia). rewrite Z1, <- app_assoc. cbn [app].
      replace (zlen argv + 1 + zlen ws) with (zlen argv + (1 + zlen ws)) by lia. reflexivity.
Qed.

Theorem strtoargv_words s ws :
  words s ws -> Forall (fun w => zlen w < 1024) ws ->
  strtoargv s = Ok (if zlen ws <? 29 then Some ws else None).
Proof.
  intros W F. unfold strtoargv. rewrite (strtoargv_go_words s ws W).
  rewrite argv_result_ok; auto. reflexivity.
Qed.

Theorem strtoargv_overrun s ws w :
  words s ws -> zlen ws <= 28 -> In w ws -> 1024 <= zlen w -> strtoargv s = Fault.
Proof.
  intros W L I G. unfold strtoargv. rewrite (strtoargv_go_words s ws W).
  assert (X : forall ws argv, zlen argv + zlen ws <= 28 -> In w ws -> argv_result ws argv = Fault).
  { clear - G. induction ws as [|x ws IH]; intros argv L I; [destruct I|].
    cbn [argv_result]. rewrite zlen_cons in L. pose proof (zlen_nonneg ws).
    destruct (zlen x >=? 1024) eqn:E; [reflexivity|].
    destruct (zlen argv + 1 >=? 29) eqn:E2; [lia|].
    apply IH.
    - rewrite zlen_app. change (zlen [x]) with 1. lia.
    - destruct I as [->|I]; [lia|auto]. }
  apply X; auto.
Qed.

Lemma words_exists s : exists ws, words s ws.
Proof.
  assert (SP : forall s, exists a b, s = a ++ b /\ Forall blank a /\ (b = [] \/ ~ blank (hd x00 b))).
  { induction s0 as [|c s0 (a & b & -> & F & B)]; [exists [], []; auto|].
    destruct (isspace c) eqn:E.
    - apply isspace_blank in E. exists (c :: a), b. auto.
    - apply isspace_not_blank in E. exists [], (c :: a ++ b). auto. }
  assert (WD : forall s, exists a b, s = a ++ b /\ Forall (fun c => ~ blank c) a /\ (b = [] \/ blank (hd x00 b))).
  { induction s0 as [|c s0 (a & b & -> & F & B)]; [exists [], []; auto|].
    destruct (isspace c) eqn:E.
    - apply isspace_blank in E. exists [], (c :: a ++ b). auto.
    - apply isspace_not_blank in E. exists (c :: a), b. auto. }
  remember (length s) as n eqn:E. revert s E.
  induction n as [n IH] using lt_wf_ind. intros s E.
  destruct (SP s) as (sp & r & -> & Fs & R). destruct R as [->|NB].
  - exists []. apply words_none. rewrite app_nil_r. auto.
  - destruct (WD r) as (w & t & -> & Fw & T).
    destruct w as [|c w].
    + destruct T as [->|T].
      * exists []. rewrite !app_nil_r. apply words_none. auto.
      * cbn [app] in NB. tauto.
    + destruct (IH (length t)) with (s := t) as (ws & W); auto.
      { subst n. rewrite !app_length. cbn. lia. }
      exists ((c :: w) :: ws). apply words_more; auto. discriminate.
Qed.

Theorem is_valid_hostname_all s :
  is_valid_hostname s (zlen s) = Ok true <-> (hostname s /\ zlen s <= 254).
Proof.
  destruct s as [|c s]; [|apply is_valid_hostname_iff; discriminate].
  split; [discriminate|]. intros [(ls & N & F & H) _]. exfalso.
  destruct ls as [|l ls]; [congruence|]. inversion F as [|? ? L _]; subst.
  destruct L as (L & _). destruct l as [|x l]; [change (zlen (@nil byte)) with 0 in L; lia|].
  destruct ls; cbn in H; destruct H; discriminate.
Qed.
