(** Proofs: the data of a packet. *)
From Verif Require Import Bytes P_bytes M_base64 S_base64 S_text S_codec S_cipher S_ctx S_access S_cycle M_util M_message M_codec M_cipher M_ctx M_access
  M_replay M_cycle M_incoming S_incoming P_util P_util2 P_access P_ctx4 P_incoming P_incoming2 P_incoming3.
From Coq Require Import Init.Byte List ZArith Bool Lia.
Import ListNotations.
Open Scope Z_scope.

(** ** Texts in arrays *)
Lemma cstr_split buf : In x00 buf -> exists z, buf = cstr buf ++ x00 :: z.
Proof.
  induction buf as [|c r IH]; intro I; [destruct I|]. cbn [cstr]. destruct (beq_spec c x00) as [->|N].
  - exists r. reflexivity.
  - destruct I as [->|I]; [congruence|]. destruct (IH I) as [z E]. exists z. cbn [app]. congruence.
Qed.
Lemma cstr_of t z : no_nul t -> cstr (t ++ x00 :: z) = t.
Proof. apply cstr_app_nul. Qed.
Lemma packet_text p : packet_ok p -> exists z, k_buf p = cstr (k_buf p) ++ x00 :: z /\ zlen (cstr (k_buf p)) <= k_len p /\
  request_text p (cstr (k_buf p)).
Proof.
  intros [B L N _ _]. destruct (cstr_split (ztake (k_len p + 1) (k_buf p)) N) as [z E].
  set (t := cstr (ztake (k_len p + 1) (k_buf p))) in *.
  assert (NT : no_nul t) by apply cstr_no_nul.
  assert (Q : k_buf p = t ++ x00 :: (z ++ zdrop (k_len p + 1) (k_buf p))).
  { rewrite <- (ztake_zdrop (k_len p + 1) (k_buf p)) at 1. rewrite E, <- app_assoc. reflexivity. }
  assert (C : cstr (k_buf p) = t) by (rewrite Q; apply cstr_of; auto). rewrite C.
  assert (LT : zlen t <= k_len p).
  { pose proof (f_equal zlen E) as K. rewrite zlen_ztake in K by lia. rewrite zlen_app, zlen_cons in K. pose proof (zlen_nonneg z). lia. }
  exists (z ++ zdrop (k_len p + 1) (k_buf p)). split; [exact Q|]. split; auto. split; auto.
  unfold payload. rewrite Q. destruct (Z.eq_dec (zlen t) (k_len p)) as [EL|NE].
  - left. apply ztake_app. auto.
  - right. set (w := z ++ zdrop (k_len p + 1) (k_buf p)). exists (ztake (k_len p - zlen t - 1) w).
    unfold ztake. rewrite firstn_app. rewrite firstn_all2 by (unfold zlen in *; lia). f_equal.
    replace (Z.to_nat (k_len p) - length t)%nat with (S (Z.to_nat (k_len p - zlen t - 1))) by (unfold zlen in *; lia). reflexivity.
Qed.
Lemma request_unique p t t' : request_text p t -> request_text p t' -> t = t'.
Proof.
  assert (S : forall a b z z' : bytes, no_nul a -> no_nul b -> (z = [] \/ exists y, z = x00 :: y) -> (z' = [] \/ exists y, z' = x00 :: y) -> a ++ z = b ++ z' -> a = b).
  { induction a as [|x a IH]; intros [|y b] z z' NA NB ZA ZB E; auto.
    - cbn in E. destruct ZA as [->|[q ->]]; [discriminate|]. injection E as <- _. exfalso. apply NB. left; auto.
    - cbn in E. destruct ZB as [->|[q ->]]; [discriminate|]. injection E as -> _. exfalso. apply NA. left; auto.
    - cbn in E. injection E as <- E. f_equal. apply (IH b z z'); auto; intro Q; [apply NA|apply NB]; right; auto. }
  intros (N & P) (N' & P'). destruct P as [P|[z P]], P' as [P'|[z' P']]; rewrite P' in P.
  - symmetry; auto.
  - apply (S t t' [] (x00 :: z')); eauto. rewrite app_nil_r. auto.
  - apply (S t t' (x00 :: z) []); eauto. rewrite app_nil_r. auto.
  - apply (S t t' (x00 :: z) (x00 :: z')); eauto.
Qed.

(** ** Search *)
Lemma strstr_none f n s : strstr f n s = None -> forall a h b, s = a ++ h ++ b -> map f h = n -> False.
Proof.
  induction s as [|c r IH]; cbn [strstr]; intros E a h b Q M.
  - destruct (is_prefix n (map f [])) eqn:P; [discriminate|].
    assert (X : is_prefix n (map f []) = true).
    { apply is_prefix_app. destruct a; [|discriminate]. cbn in Q. destruct h; [|discriminate]. cbn in M. subst n. exists []. reflexivity. }
    congruence.
  - destruct (is_prefix n (map f (c :: r))) eqn:P; [discriminate|]. destruct a as [|x a].
    + assert (X : is_prefix n (map f (c :: r)) = true).
      { apply is_prefix_app. cbn [app] in Q. rewrite Q, map_app, M. eauto. }
      congruence.
    + cbn in Q. injection Q as <- Q. eapply IH; eauto.
Qed.
Lemma strstr_some f n s r : strstr f n s = Some r -> exists a h b, s = a ++ r /\ r = h ++ b /\ map f h = n /\
  forall a1 h1 b1, s = a1 ++ h1 ++ b1 -> map f h1 = n -> zlen a <= zlen a1.
Proof.
  revert r. induction s as [|c s IH]; intros r E; cbn [strstr] in E.
  - destruct (is_prefix n (map f [])) eqn:P; [|discriminate]. injection E as <-. apply is_prefix_app in P as [q P].
    exists [], [], []. cbn in P. destruct n; [|discriminate]. repeat split; auto. intros. apply zlen_nonneg.
  - destruct (is_prefix n (map f (c :: s))) eqn:P.
    + injection E as <-. apply is_prefix_app in P as [q P]. exists [], (ztake (zlen n) (c :: s)), (zdrop (zlen n) (c :: s)).
      split; auto. split; [symmetry; apply ztake_zdrop|]. split; [|intros; apply zlen_nonneg].
      unfold ztake. rewrite <- firstn_map, P. pose proof (ztake_app (zlen n) n q eq_refl) as K. exact K.
    + destruct (IH r E) as (a & h & b & -> & -> & M & MN). exists (c :: a), h, b. repeat split; auto.
      intros a1 h1 b1 Q M1. destruct a1 as [|x a1].
      * exfalso. assert (X : is_prefix n (map f (c :: a ++ h ++ b)) = true).
        { apply is_prefix_app. cbn [app] in Q. rewrite Q, map_app, M1. eauto. }
        congruence.
      * cbn in Q. injection Q as <- Q. rewrite !zlen_cons. specialize (MN a1 h1 b1 Q M1). lia.
Qed.

(** ** The X-Forwarded-For header *)
Lemma xff_scan_spec z : forall s n, no_nul s -> exists v b, s = v ++ b /\ ~ Exists blank v /\
  ((b = [] /\ xff_scan (s ++ x00 :: z) n = Some (n + zlen v, false)) \/
   (exists c r, b = c :: r /\ blank c /\ xff_scan (s ++ x00 :: z) n = Some (n + zlen v, true))).
Proof.
  induction s as [|c r IH]; intros n N.
  - exists [], []. split; auto. split; [intro Q; inversion Q|]. left. split; auto. cbn [app xff_scan]. rewrite beq_refl.
    change (zlen (@nil byte)) with 0. f_equal. f_equal. lia.
  - cbn [app xff_scan]. replace (beq c x00) with false by (symmetry; apply beq_neq; intro Q; apply N; left; auto).
    destruct (isspace c) eqn:SP.
    + exists [], (c :: r). split; auto. split; [intro Q; inversion Q|]. right. exists c, r. split; auto.
      split; [apply isspace_blank; auto|]. change (zlen (@nil byte)) with 0. f_equal. f_equal. lia.
    + destruct (IH (n + 1)) as (v & b & E & NB & K). { intro Q. apply N. right; auto. }
      exists (c :: v), b. split; [cbn; congruence|]. split.
      { intro Q. inversion Q; subst; [apply isspace_not_blank in SP; auto|auto]. }
      rewrite zlen_cons. replace (n + (1 + zlen v)) with (n + 1 + zlen v) by lia. exact K.
Qed.
Lemma address_iff v : is_valid_ipv4_addr v (zlen v) = true -> zlen v <= 15 -> address_text v.
Proof.
  intros V L. apply is_valid_ipv4_iff in V; [|pose proof (zlen_nonneg v); lia]. destruct V as (L2 & T). rewrite ztake_all in T by lia. split; [lia|auto].
Qed.
Lemma address_iff2 v : address_text v -> is_valid_ipv4_addr v (zlen v) = true.
Proof.
  intros (L & T). apply is_valid_ipv4_iff; [pose proof (zlen_nonneg v); lia|]. rewrite ztake_all by lia. split; [lia|auto].
Qed.
Lemma memb_app t z : memb x00 (t ++ x00 :: z) = true.
Proof. induction t as [|c t IH]; cbn [memb app existsb]; [rewrite beq_refl; reflexivity|]. unfold memb in *. cbn. rewrite IH. apply orb_true_r. Qed.

(** With [buf] = [u] [v] [c] [b], a scan from the end of [u] up to [c]. *)
Lemma xff_scan_at z : forall v n, no_nul v -> ~ Exists blank v ->
  (forall c, blank c -> xff_scan (v ++ c :: z) n = Some (n + zlen v, true)) /\ xff_scan (v ++ x00 :: z) n = Some (n + zlen v, false).
Proof.
  induction v as [|c v IH]; intros n N B.
  - change (zlen (@nil byte)) with 0. rewrite Z.add_0_r. split.
    + intros c BC. cbn [app xff_scan]. replace (beq c x00) with false; [rewrite (proj2 (isspace_blank c) BC); reflexivity|].
      symmetry. apply beq_neq. intros ->. revert BC. vm_compute. intros [Q|[Q _]]; [discriminate|apply Q; reflexivity].
    + cbn [app xff_scan]. rewrite beq_refl. reflexivity.
  - cbn [app xff_scan]. replace (beq c x00) with false by (symmetry; apply beq_neq; intro Q; apply N; left; auto).
    replace (isspace c) with false by (symmetry; apply isspace_not_blank; intro Q; apply B; left; auto).
    destruct (IH (n + 1)) as [I1 I2]; [intro Q; apply N; right; auto|intro Q; apply B; right; auto|].
    rewrite zlen_cons. replace (n + (1 + zlen v)) with (n + 1 + zlen v) by lia. auto.
Qed.
Lemma zdrop_at (u r : bytes) n : n = zlen u -> zdrop n (u ++ r) = r.
Proof. intro E. apply zdrop_app. auto. Qed.
Lemma store_at (u r : bytes) c d : store (u ++ c :: r) (zlen u) d = u ++ d :: r.
Proof.
  unfold store. rewrite ztake_app by reflexivity. cbn [app]. f_equal. f_equal.
  replace (u ++ c :: r) with ((u ++ [c]) ++ r) by (rewrite <- app_assoc; reflexivity). apply zdrop_app.
  rewrite zlen_app. reflexivity.
Qed.
Lemma xff_header_blank u v c b : no_nul v -> ~ Exists blank v -> blank c ->
  xff_header (u ++ v ++ c :: b) (zlen u) =
  (if is_valid_ipv4_addr v (zlen v) then if zlen v >? 15 then Fault else Ok (u ++ v ++ x00 :: b, v)
   else Ok (u ++ v ++ x00 :: b, [])).
Proof.
  intros N B C. unfold xff_header. rewrite zdrop_at by reflexivity. rewrite (proj1 (xff_scan_at b v 0 N B) c C).
  cbv zeta. rewrite Z.add_0_l.
  replace (zlen u + zlen v - (zlen v + 1 - 1)) with (zlen u) by lia.
  replace (store (u ++ v ++ c :: b) (zlen u + zlen v) x00) with (u ++ v ++ x00 :: b).
  2:{ replace (zlen u + zlen v) with (zlen (u ++ v)) by apply zlen_app. rewrite (app_assoc u v (c :: b)), store_at, <- app_assoc. reflexivity. }
  rewrite zdrop_at by reflexivity. rewrite memb_app. cbn [negb]. rewrite cstr_of by auto.
  destruct (is_valid_ipv4_addr v (zlen v)); cbn [negb]; [|reflexivity].
  rewrite Z.min_id. unfold MAX_IPV4_STR_LEN. destruct (zlen v >? 15) eqn:L; rewrite Z.gtb_ltb in L.
  - apply Z.ltb_lt in L. replace (16 <? zlen v + 1) with true by (symmetry; apply Z.ltb_lt; lia). reflexivity.
  - apply Z.ltb_ge in L. replace (16 <? zlen v + 1) with false by (symmetry; apply Z.ltb_ge; lia).
    rewrite ztake_all by (pose proof (zlen_nonneg v); lia). reflexivity.
Qed.
Lemma xff_header_end u c v z : no_nul (c :: v) -> ~ Exists blank (c :: v) ->
  xff_header (u ++ (c :: v) ++ x00 :: z) (zlen u) =
  (if is_valid_ipv4_addr v (zlen v) then if zlen v >? 15 then Fault else Ok (u ++ (c :: v) ++ x00 :: z, v)
   else Ok (u ++ (c :: v) ++ x00 :: z, [])).
Proof.
  intros N B. unfold xff_header. rewrite zdrop_at by reflexivity. rewrite (proj2 (xff_scan_at z (c :: v) 0 N B)).
  cbv zeta. rewrite Z.add_0_l, zlen_cons.
  replace (zlen u + (1 + zlen v) - (1 + zlen v - 1)) with (zlen (u ++ [c])) by (rewrite zlen_app; change (zlen [c]) with 1; lia).
  replace (u ++ (c :: v) ++ x00 :: z) with ((u ++ [c]) ++ v ++ x00 :: z) by (rewrite <- !app_assoc; reflexivity).
  rewrite zdrop_at by reflexivity. rewrite memb_app. cbn [negb].
  assert (NV : no_nul v) by (intro Q; apply N; right; auto). rewrite cstr_of by auto.
  destruct (is_valid_ipv4_addr v (zlen v)); cbn [negb]; [|reflexivity].
  unfold MAX_IPV4_STR_LEN. replace (Z.min (zlen v + 1) (1 + zlen v)) with (zlen v + 1) by lia. destruct (zlen v >? 15) eqn:L; rewrite Z.gtb_ltb in L.
  - apply Z.ltb_lt in L. replace (16 <? zlen v + 1) with true by (symmetry; apply Z.ltb_lt; lia). reflexivity.
  - apply Z.ltb_ge in L. replace (16 <? zlen v + 1) with false by (symmetry; apply Z.ltb_ge; lia).
    rewrite ztake_all by (pose proof (zlen_nonneg v); lia). reflexivity.
Qed.
Lemma xff_header_empty u z r : xff_header (u ++ x00 :: z) (zlen u) = Ok r -> r = (u ++ x00 :: z, []).
Proof.
  unfold xff_header. rewrite zdrop_at by reflexivity. pose proof (proj2 (xff_scan_at z [] 0 (fun Q => match Q with end) ltac:(intro Q; inversion Q))) as E.
  cbn [app] in E. rewrite E. cbv zeta. change (0 + zlen (@nil byte)) with 0.
  destruct (negb (memb x00 _)); [discriminate|]. destruct (negb (is_valid_ipv4_addr _ _)); [intro Q; injection Q as <-; reflexivity|].
  change (Z.max 0 (0 - 1)) with 0. destruct (MAX_IPV4_STR_LEN <? _); [discriminate|]. intro Q. injection Q as <-. reflexivity.
Qed.

(** ** The request *)
Definition mapc (c : byte) : byte := if beq c "-"%byte then "+"%byte else if beq c "_"%byte then "/"%byte else c.
Lemma mapc_url c : mapc c = url_back c.
Proof. reflexivity. Qed.
Lemma http_loop_spec : forall n s i, (n <= length s)%nat -> exists v b, s = v ++ b /\ ~ Exists blank v /\
  ((length v = n /\ http_loop n s i = (map url_back v ++ b, i + zlen v)) \/
   (exists c r, b = c :: r /\ blank c /\ (length v < n)%nat /\ http_loop n s i = (map url_back v ++ x00 :: r, i + zlen v))).
Proof.
  induction n as [|n IH]; intros s i L.
  - exists [], s. split; auto. split; [intro Q; inversion Q|]. left. split; auto. cbn [http_loop map app]. change (zlen (@nil byte)) with 0. f_equal. lia.
  - destruct s as [|c r]; [cbn in L; lia|]. cbn [http_loop]. destruct (isspace c) eqn:SP.
    + exists [], (c :: r). split; auto. split; [intro Q; inversion Q|]. right. exists c, r. split; auto.
      split; [apply isspace_blank; auto|]. split; [cbn; lia|]. cbn [map app]. change (zlen (@nil byte)) with 0. f_equal. lia.
    + destruct (IH r (i + 1)) as (v & b & -> & NB & K). { cbn in L. lia. }
      exists (c :: v), b. split; auto. split. { intro Q. inversion Q; subst; [apply isspace_not_blank in SP; auto|auto]. }
      rewrite zlen_cons. replace (i + (1 + zlen v)) with (i + 1 + zlen v) by lia.
      destruct K as [[LV K]|(c2 & r2 & -> & BC & LV & K)]; rewrite K.
      * left. split; [cbn; lia|]. reflexivity.
      * right. exists c2, r2. split; auto. split; auto. split; [cbn; lia|]. reflexivity.
Qed.
Lemma b64_class_iff c : b64_class c = true <-> b64_or_eq c.
Proof. unfold b64_or_eq, is_b64_char. destruct c; vm_compute; split; intro Q; try reflexivity; try discriminate; intuition (try discriminate); try (left; split; discriminate). Qed.
Lemma in_cstr buf : zlen (cstr buf) < zlen buf -> In x00 buf.
Proof.
  intro L. destruct (in_dec byte_eq_dec x00 buf) as [I|N]; auto. exfalso. rewrite cstr_id in L by auto. lia.
Qed.
Lemma prefix_text v b q y : no_nul v -> no_nul q -> v ++ b = q ++ x00 :: y -> exists r, q = v ++ r /\ b = r ++ x00 :: y.
Proof.
  revert q. induction v as [|c v IH]; intros q NV NQ E; [exists q; auto|].
  destruct q as [|d q]; cbn in E; injection E as -> E.
  - exfalso. apply NV. left; auto.
  - destruct (IH q) as (r & -> & ->); auto; [intro Q; apply NV; right; auto|intro Q; apply NQ; right; auto|]. exists r. auto.
Qed.
Lemma url_b64_nonul v : forallb b64_class (map url_back v) = true -> no_nul v.
Proof.
  intros F I. rewrite forallb_forall in F. specialize (F (url_back x00) (in_map _ _ _ I)). discriminate.
Qed.
Lemma is_base64_take s n : 0 <= n < 65536 -> is_base64 s n = forallb b64_class (ztake n s).
Proof. intro R. unfold is_base64, u16. rewrite Z.mod_small by lia. reflexivity. Qed.
Lemma b64_forall t : forallb b64_class t = true <-> Forall b64_or_eq t.
Proof. rewrite forallb_forall, Forall_forall. split; intros F x I; apply b64_class_iff; auto. Qed.

Definition strip (buf : bytes) (len : Z) : bytes * Z :=
  http_loop (Z.to_nat (len - 5)) (fst (strlcpy buf (cstr (zdrop 5 buf)) len)) 0.
Definition ends (len : Z) (path rest : bytes) : Prop :=
  (rest = [] /\ zlen path = len - 5) \/ exists c r, rest = c :: r /\ blank c.

Lemma strip_spec buf len q : zlen buf = 1501 -> 140 <= len <= 1500 -> q = cstr (zdrop 5 buf) -> zlen q <= len - 5 ->
  exists buf3 i, strip buf len = (buf3, i) /\ 0 <= i <= 1500 /\
  (is_base64 buf3 i = true -> exists path rest, q = path ++ rest /\ ~ Exists blank path /\ ends len path rest /\
     cstr buf3 = map url_back path /\ i = zlen path /\ Forall b64_or_eq (map url_back path)) /\
  (forall path rest, q = path ++ rest -> ~ Exists blank path -> ends len path rest -> Forall b64_or_eq (map url_back path) ->
     is_base64 buf3 i = true /\ i = zlen path /\ cstr buf3 = map url_back path).
Proof.
  intros LB LL EQ LQ. unfold strip. rewrite <- EQ.
  assert (NQ : no_nul q) by (subst q; apply cstr_no_nul).
  pose proof (strlcpy_spec buf q len ltac:(lia) NQ) as SP. destruct (strlcpy buf q len) as [buf2 r0]. cbn [fst].
  destruct SP as (C2 & L2 & _). rewrite ztake_all in C2 by lia.
  assert (I2 : In x00 buf2) by (apply in_cstr; rewrite C2; lia).
  destruct (cstr_split buf2 I2) as [y E2]. rewrite C2 in E2.
  destruct (http_loop_spec (Z.to_nat (len - 5)) buf2 0) as (v & b & E & NB & K). { unfold zlen in *. lia. }
  rewrite E2 in E. symmetry in E.
  assert (LV : (length v <= Z.to_nat (len - 5))%nat) by (destruct K as [[K _]|(? & ? & _ & _ & K & _)]; lia).
  assert (LVZ : 0 <= zlen v <= 1500) by (unfold zlen in *; lia).
  assert (X : exists buf3, http_loop (Z.to_nat (len - 5)) buf2 0 = (buf3, zlen v) /\ ztake (zlen v) buf3 = map url_back v).
  { assert (M : zlen v = zlen (map url_back v)) by (unfold zlen; rewrite map_length; reflexivity).
    destruct K as [[_ K]|(c & r & -> & BC & _ & K)]; rewrite K; eexists; (split; [reflexivity|]); apply ztake_app; auto. }
  destruct X as (buf3 & HB & HT). exists buf3, (zlen v). split; [exact HB|]. split; [lia|].
  rewrite is_base64_take by lia. rewrite HT.
  assert (CS : forallb b64_class (map url_back v) = true -> exists r, q = v ++ r /\ ends len v r /\ cstr buf3 = map url_back v).
  { intro F. pose proof (url_b64_nonul v F) as NV. destruct (prefix_text v b q y NV NQ E) as (r & -> & Eb). exists r. split; auto.
    assert (NM : no_nul (map url_back v)).
    { intro I. rewrite forallb_forall in F. specialize (F _ I). discriminate. }
    rewrite HB in K. destruct K as [[LV2 K]|(c & r2 & Q & BC & LV2 & K)]; injection K as ->.
    - rewrite zlen_app in LQ. pose proof (zlen_nonneg r). assert (zlen r = 0) by (unfold zlen in *; lia).
      destruct r; [|rewrite zlen_cons in *; pose proof (zlen_nonneg r); lia]. split; [left; split; auto; unfold zlen in *; lia|].
      rewrite Eb. cbn [app]. apply cstr_of; auto.
    - rewrite Q in Eb. destruct r as [|c' r]; cbn in Eb.
      + injection Eb as -> _. exfalso. revert BC. vm_compute. intros [U|[U _]]; [discriminate|apply U; reflexivity].
      + injection Eb as -> _. split; [right; exists c', r; auto|]. apply cstr_of; auto. }
  split.
  - intro F. destruct (CS F) as (r & Q & EN & C3). exists v, r. repeat split; auto. apply b64_forall; auto.
  - intros path rest Q NBP EN FP. apply b64_forall in FP. pose proof (url_b64_nonul path FP) as NP.
    assert (V : v = path).
    { rewrite Q, <- app_assoc in E.
      assert (LP : zlen path <= len - 5) by (rewrite Q, zlen_app in LQ; pose proof (zlen_nonneg rest); lia).
      destruct (Nat.lt_trichotomy (length v) (length path)) as [LT|[EL|LT]].
      - exfalso. destruct K as [[K _]|(c & r & -> & BC & _ & _)]; [unfold zlen in *; lia|].
        apply NBP. assert (P : path = firstn (length v) path ++ skipn (length v) path) by (symmetry; apply firstn_skipn).
        assert (SK : skipn (length v) (v ++ c :: r) = skipn (length v) (path ++ rest ++ x00 :: y)) by (rewrite E; reflexivity).
        rewrite skipn_app, skipn_all, Nat.sub_diag in SK. cbn [app skipn] in SK. rewrite skipn_app in SK.
        destruct (skipn (length v) path) as [|c' r'] eqn:SV.
        { apply (f_equal (@length byte)) in SV. rewrite skipn_length in SV. cbn in SV. lia. }
        cbn [app] in SK. injection SK as -> _. rewrite P. apply Exists_app. right. left. auto.
      - assert (T : v = firstn (length v) (path ++ rest ++ x00 :: y)) by (rewrite <- E, firstn_app, firstn_all, Nat.sub_diag, app_nil_r; reflexivity).
        rewrite EL, firstn_app, firstn_all, Nat.sub_diag, app_nil_r in T. auto.
      - exfalso. destruct EN as [[-> EN]|(c & r & -> & BC)]; [unfold zlen in *; lia|].
        apply NB. assert (P : v = firstn (length path) v ++ skipn (length path) v) by (symmetry; apply firstn_skipn).
        assert (SK : skipn (length path) (v ++ b) = skipn (length path) (path ++ (c :: r) ++ x00 :: y)) by (rewrite E; reflexivity).
        rewrite (skipn_app _ path), skipn_all, Nat.sub_diag in SK. cbn [app skipn] in SK. rewrite skipn_app in SK.
        destruct (skipn (length path) v) as [|c' r'] eqn:SV.
        { apply (f_equal (@length byte)) in SV. rewrite skipn_length in SV. cbn in SV. lia. }
        cbn [app] in SK. injection SK as -> _. rewrite P. apply Exists_app. right. left. auto. }
    subst v. split; auto. split; auto. destruct (CS FP) as (r & _ & _ & C3). auto.
Qed.

(** ** The whole of it *)
Definition xff_stage (cf : conf) (buf t : bytes) : outcome (bytes * bytes) :=
  match strstr tolower ($ "x-forwarded-for: ") t with
  | Some r => if yes (cf_xff cf) then xff_header buf (zlen t - zlen r + 17) else Ok (buf, [])
  | None => Ok (buf, [])
  end.
Definition hdr := $ "x-forwarded-for: ".
Lemma xff_stage_cases cf t z : no_nul t ->
  (xff_stage cf (t ++ x00 :: z) t = Ok (t ++ x00 :: z, []) /\ (on (cf_xff cf) -> forall v b, ~ follows hdr t v b)) \/
  exists u v b, on (cf_xff cf) /\ follows hdr t v b /\ t = u ++ v ++ b /\ (exists a h, u = a ++ h /\ lower h = hdr) /\
  match b with
  | [] => match v with
          | [] => forall r, xff_stage cf (t ++ x00 :: z) t = Ok r -> r = (t ++ x00 :: z, [])
          | _ :: v' => xff_stage cf (t ++ x00 :: z) t =
              if is_valid_ipv4_addr v' (zlen v') then if zlen v' >? 15 then Fault else Ok (t ++ x00 :: z, v') else Ok (t ++ x00 :: z, [])
          end
  | c :: b' => xff_stage cf (t ++ x00 :: z) t =
      if is_valid_ipv4_addr v (zlen v) then if zlen v >? 15 then Fault else Ok (u ++ v ++ x00 :: b' ++ x00 :: z, v)
      else Ok (u ++ v ++ x00 :: b' ++ x00 :: z, [])
  end.
Proof.
  intro N. unfold xff_stage. fold hdr. destruct (strstr tolower hdr t) as [r|] eqn:SS.
  - destruct (yes (cf_xff cf)) eqn:Y.
    2:{ left. split; auto. intro O. apply yes_on in O. congruence. }
    right. apply yes_on in Y. destruct (strstr_some _ _ _ _ SS) as (a & h & r' & -> & -> & M & MIN).
    assert (NR : no_nul r') by (intro Q; apply N; apply in_or_app; right; apply in_or_app; auto).
    destruct (xff_scan_spec z r' 0 NR) as (v & b & -> & NB & K).
    assert (LH : zlen h = 17). { pose proof (f_equal zlen M) as Q. unfold zlen in *. rewrite map_length in Q. exact Q. }
    assert (NV : no_nul v) by (intro Q; apply NR; apply in_or_app; auto).
    exists (a ++ h), v, b. split; auto. split.
    { exists a, h. split; auto. split; [rewrite lower_tolower; auto|]. split; auto. split.
      - destruct K as [[-> _]|(c & q & -> & BC & _)]; [auto|right; eauto].
      - intros a1 h1 b1 Q1 Q2. rewrite lower_tolower in Q2. eapply MIN; eauto. }
    split; [rewrite <- app_assoc; reflexivity|]. split; [exists a, h; rewrite lower_tolower; auto|].
    replace (zlen (a ++ h ++ v ++ b) - zlen (h ++ v ++ b) + 17) with (zlen (a ++ h)) by (rewrite !zlen_app; lia).
    destruct b as [|c b'].
    + destruct v as [|c v'].
      * cbn [app]. rewrite app_nil_r. apply xff_header_empty.
      * rewrite app_nil_r. rewrite !(app_assoc a h). rewrite <- (app_assoc (a ++ h) (c :: v')). rewrite xff_header_end by auto. reflexivity.
    + destruct K as [[Q _]|(c2 & q & Q & BC & _)]; [discriminate|]. injection Q as <- <-.
      replace ((a ++ h ++ v ++ c :: b') ++ x00 :: z) with ((a ++ h) ++ v ++ c :: (b' ++ x00 :: z)) by (rewrite <- !app_assoc; reflexivity).
      rewrite xff_header_blank by auto. reflexivity.
  - left. split; auto. intros _ v b (a & h & Q & M & _). rewrite lower_tolower in M. eapply (strstr_none _ _ _ SS a h (v ++ b)); eauto.
Qed.
Lemma get_iff p : packet_ok p ->
  (bseq (map tolower (ztake 5 (cstr (k_buf p)))) ($ "get /") = true <-> exists g r, payload p = g ++ r /\ lower g = $ "get /").
Proof.
  intro PO. destruct (packet_text p PO) as (z & _ & _ & NT & PT). set (t := cstr (k_buf p)) in *. rewrite bseq_eq. split.
  - intro E. exists (ztake 5 t). rewrite lower_tolower. destruct PT as [PT|[z' PT]]; rewrite PT.
    + exists (zdrop 5 t). rewrite ztake_zdrop. auto.
    + exists (zdrop 5 t ++ x00 :: z'). rewrite app_assoc, ztake_zdrop. auto.
  - intros (g & r & Q & L). rewrite lower_tolower in L.
    assert (LG : zlen g = 5). { pose proof (f_equal zlen L) as K. unfold zlen in *. rewrite map_length in K. exact K. }
    assert (NG : no_nul g). { intro I. apply (in_map tolower) in I. rewrite L in I. revert I. vm_compute. intuition discriminate. }
    assert (X : exists r', t = g ++ r').
    { destruct PT as [PT|[z' PT]]; rewrite PT in Q; [eauto|]. symmetry in Q. destruct (prefix_text g r t z' NG NT Q) as (r' & -> & _). eauto. }
    destruct X as [r' ->]. rewrite ztake_app by lia. exact L.
Qed.
Lemma cmp_prefix p s : packet_ok p -> zlen s <= 1500 -> zlen s <= k_len p ->
  exists v, constant_runtime_cmp (k_buf p) s (zlen s) = Some v /\ (v = 0 <-> exists r, payload p = s ++ r).
Proof.
  intros PO L LK. pose proof (zlen_nonneg s). pose proof (po_buf p PO). pose proof (po_len p PO).
  destruct (constant_runtime_cmp_spec (k_buf p) s (zlen s)) as (v & E & I); [lia|lia|].
  exists v. split; auto. rewrite I. rewrite (ztake_all (zlen s) s) by lia.
  assert (P : ztake (zlen s) (payload p) = ztake (zlen s) (k_buf p)).
  { unfold payload, ztake. rewrite firstn_firstn. f_equal. unfold zlen in *. lia. }
  split.
  - intro Q. exists (zdrop (zlen s) (payload p)). rewrite <- Q, <- P at 1. symmetry. apply ztake_zdrop.
  - intros [r Q]. rewrite <- P, Q. apply ztake_app. reflexivity.
Qed.
Lemma payload_len p : packet_ok p -> zlen (payload p) = k_len p.
Proof. intro PO. unfold payload. destruct PO as [A B _ _ _]. rewrite zlen_ztake; lia. Qed.

(** The result of the whole: dropped or not, and with what. *)
Lemma preprocess_eq cf p : preprocess cf p =
  if k_len p <? 140 then Ok None
  else if k_len p >? 1500 then Ok None
  else match constant_runtime_cmp (k_buf p) ($ "U2FsdGVkX1") (zlen ($ "U2FsdGVkX1")) with
  | None => Fault
  | Some v =>
  if v =? 0 then Ok None
  else match (if k_len p >? 400 then constant_runtime_cmp (k_buf p) ($ "hQ") (zlen ($ "hQ")) else Some 1) with
  | None => Fault
  | Some v =>
  if v =? 0 then Ok None
  else if yes (cf_http cf) && bseq (map tolower (ztake 5 (cstr (k_buf p)))) ($ "get /") then
    if no (cf_any_user_agent cf) && (match strstr (fun c => c) ($ "User-Agent: Fwknop") (cstr (k_buf p)) with None => true | Some _ => false end)
    then Ok None
    else match xff_stage cf (k_buf p) (cstr (k_buf p)) with
    | Fault => Fault
    | Ok (buf1, fwd) =>
        let '(buf3, i) := strip buf1 (k_len p) in
        if i <? 140 then Ok None
        else if negb (is_base64 buf3 i) then Ok None
        else Ok (Some (cstr buf3, fwd))
    end
  else if negb (is_base64 (k_buf p) (k_len p)) then Ok None
  else Ok (Some (cstr (k_buf p), []))
  end end.
Proof. reflexivity. Qed.

(** After the header has been looked at, the array holds the text or a part of it that goes
    beyond the path. *)
Lemma xff_buf cf p buf1 fwd : packet_ok p -> xff_stage cf (k_buf p) (cstr (k_buf p)) = Ok (buf1, fwd) ->
  zlen buf1 = 1501 /\ exists t1 s, cstr (k_buf p) = t1 ++ s /\ cstr buf1 = t1 /\ (exists z1, buf1 = t1 ++ x00 :: z1) /\
  (s = [] \/ exists a h v, t1 = a ++ h ++ v /\ lower h = hdr).
Proof.
  intros PO E. destruct (packet_text p PO) as (z & B & L & NT & PT). set (t := cstr (k_buf p)) in *. rewrite B in E.
  assert (KEEP : buf1 = t ++ x00 :: z -> zlen buf1 = 1501 /\ exists t1 s, t = t1 ++ s /\ cstr buf1 = t1 /\ (exists z1, buf1 = t1 ++ x00 :: z1) /\
                  (s = [] \/ exists a h v, t1 = a ++ h ++ v /\ lower h = hdr)).
  { intros ->. split; [rewrite <- B; apply PO|]. exists t, []. rewrite app_nil_r, cstr_of by auto. eauto 10. }
  destruct (xff_stage_cases cf t z NT) as [[Q _]|(u & v & b & O & FO & TE & (a & h & -> & LH) & K)].
  - rewrite Q in E. injection E as <- <-. auto.
  - destruct b as [|c b'].
    + destruct v as [|c v'].
      * specialize (K _ E). injection K as -> ->. auto.
      * rewrite K in E. destruct (is_valid_ipv4_addr v' (zlen v')); [destruct (zlen v' >? 15); [discriminate|]|]; injection E as <- <-; auto.
    + assert (Q : buf1 = (a ++ h) ++ v ++ x00 :: b' ++ x00 :: z).
      { rewrite K in E. destruct (is_valid_ipv4_addr v (zlen v)); [destruct (zlen v >? 15); [discriminate|]|]; injection E as <- <-; auto. }
      assert (NU : no_nul ((a ++ h) ++ v)).
      { intro I. apply NT. rewrite TE, app_assoc. apply in_or_app. auto. }
      split.
      * rewrite <- (po_buf p PO), B, TE, Q. rewrite !zlen_app, !zlen_cons, !zlen_app, !zlen_cons. lia.
      * exists ((a ++ h) ++ v), (c :: b'). split; [rewrite TE, <- !app_assoc; reflexivity|].
        replace buf1 with (((a ++ h) ++ v) ++ x00 :: (b' ++ x00 :: z)) by (rewrite Q, <- !app_assoc; reflexivity).
        rewrite cstr_of by auto. split; auto. split; [eauto|]. right. exists a, h, v. rewrite <- app_assoc. auto.
Qed.
Lemma drop5 buf1 t1 z1 : buf1 = t1 ++ x00 :: z1 -> no_nul t1 -> 5 <= zlen t1 -> cstr (zdrop 5 buf1) = zdrop 5 t1.
Proof.
  intros -> N L. assert (Q : zdrop 5 (t1 ++ x00 :: z1) = zdrop 5 t1 ++ x00 :: z1).
  { unfold zdrop. rewrite skipn_app. f_equal. replace (Z.to_nat 5 - length t1)%nat with 0%nat by (unfold zlen in L; lia). reflexivity. }
  rewrite Q. apply cstr_of. intro I. apply N. rewrite <- (ztake_zdrop 5 t1). apply in_or_app. auto.
Qed.

Lemma http_buf cf p buf1 fwd g r : packet_ok p -> 140 <= k_len p ->
  payload p = g ++ r -> lower g = $ "get /" -> xff_stage cf (k_buf p) (cstr (k_buf p)) = Ok (buf1, fwd) ->
  exists buf3 i, strip buf1 (k_len p) = (buf3, i) /\ 0 <= i <= 1500 /\
  (is_base64 buf3 i = true -> exists path, http_path p path /\ cstr buf3 = map url_back path /\ i = zlen path /\ Forall b64_or_eq (map url_back path)) /\
  (forall path, http_path p path -> Forall b64_or_eq (map url_back path) -> is_base64 buf3 i = true /\ i = zlen path /\ cstr buf3 = map url_back path).
Proof.
  intros PO L1 PY LG X. destruct (xff_buf cf p buf1 fwd PO X) as (LB & t1 & s & TE & C1 & (z1 & B1) & SS).
  destruct (packet_text p PO) as (z & B & LT & NT & PT). set (t := cstr (k_buf p)) in *.
  pose proof (po_len p PO) as KL.
  assert (G5 : forall g', lower g' = $ "get /" -> zlen g' = 5 /\ no_nul g').
  { intros g' L. rewrite lower_tolower in L. split.
    - pose proof (f_equal zlen L) as K. unfold zlen in *. rewrite map_length in K. exact K.
    - intro I. apply (in_map tolower) in I. rewrite L in I. revert I. vm_compute. intuition discriminate. }
  destruct (G5 g LG) as [LG5 NG].
  assert (TG : exists r', t = g ++ r' /\ (r = r' \/ exists z', r = r' ++ x00 :: z')).
  { destruct PT as [PT|[z' PT]]; rewrite PT in PY; [exists r; auto|]. symmetry in PY. destruct (prefix_text g r t z' NG NT PY) as (r' & -> & ->). exists r'. eauto. }
  destruct TG as (r' & TG & RR).
  (* the part of the text in the array also starts with g *)
  assert (T1 : exists q, t1 = g ++ q /\ (s = [] \/ exists k c w, q = k ++ c :: w /\ c = " "%byte)).
  { destruct SS as [->|(a & h & v & Q & LH)].
    - rewrite app_nil_r in TE. exists r'. split; auto. congruence.
    - assert (H17 : zlen h = 17). { pose proof (f_equal zlen LH) as K. rewrite lower_tolower in K. unfold zlen in *. rewrite map_length in K. exact K. }
      assert (HS : exists h0, h = h0 ++ [" "%byte] /\ zlen h0 = 16).
      { exists (ztake 16 h). rewrite lower_tolower in LH.
        assert (LS : lower (zdrop 16 h) = [" "%byte]).
        { rewrite lower_tolower. pose proof (f_equal (zdrop 16) LH) as K. unfold zdrop in *. rewrite skipn_map in K. exact K. }
        assert (L16 : zlen (zdrop 16 h) = 1) by (rewrite zlen_zdrop; lia).
        destruct (zdrop 16 h) as [|x [|? ?]] eqn:D; [discriminate| |rewrite !zlen_cons in L16; pose proof (zlen_nonneg l); lia].
        cbn [lower map] in LS. injection LS as LS. rewrite zlen_ztake by lia. split; [|reflexivity].
        rewrite <- (ztake_zdrop 16 h) at 1. rewrite D. f_equal. f_equal. clear -LS. destruct x; vm_compute in LS; try discriminate; reflexivity. }
      destruct HS as (h0 & -> & L16).
      assert (LA : zlen g <= zlen (a ++ h0)) by (rewrite zlen_app; pose proof (zlen_nonneg a); lia).
      assert (E : (a ++ h0) ++ (" "%byte :: v ++ s) = g ++ r').
      { rewrite <- TG, TE, Q, <- !app_assoc. reflexivity. }
      assert (P : exists k, a ++ h0 = g ++ k).
      { exists (zdrop (zlen g) (a ++ h0)). rewrite <- (ztake_zdrop (zlen g) (a ++ h0)) at 1. f_equal.
        pose proof (f_equal (ztake (zlen g)) E) as K. unfold ztake in K. rewrite !firstn_app in K.
        replace (Z.to_nat (zlen g) - length (a ++ h0))%nat with 0%nat in K by (unfold zlen in *; lia).
        rewrite (firstn_all2 g) in K by (unfold zlen; lia). replace (Z.to_nat (zlen g) - length g)%nat with 0%nat in K by (unfold zlen; lia).
        cbn [firstn] in K. rewrite !app_nil_r in K. unfold ztake. rewrite firstn_app. exact K. }
      destruct P as [k P]. exists (k ++ " "%byte :: v). split.
      + rewrite Q. replace (a ++ (h0 ++ [" "%byte]) ++ v) with ((a ++ h0) ++ " "%byte :: v) by (rewrite <- !app_assoc; reflexivity).
        rewrite P, <- app_assoc. reflexivity.
      + right. exists k, " "%byte, v. auto. }
  destruct T1 as (q & T1 & SQ).
  assert (N1 : no_nul t1) by (rewrite <- C1; apply cstr_no_nul).
  assert (EQ : q = cstr (zdrop 5 buf1)).
  { rewrite (drop5 buf1 t1 z1 B1 N1); [|rewrite T1, zlen_app; pose proof (zlen_nonneg q); lia]. rewrite T1. symmetry. apply zdrop_app. lia. }
  assert (LQ : zlen q <= k_len p - 5).
  { rewrite TE, T1, !zlen_app in LT. pose proof (zlen_nonneg s). lia. }
  destruct (strip_spec buf1 (k_len p) q LB ltac:(lia) EQ LQ) as (buf3 & i & ST & RI & SND & CMP).
  assert (RQ : r' = q ++ s). { rewrite TE, T1, <- app_assoc in TG. apply app_inv_head in TG. auto. }
  exists buf3, i. split; auto. split; auto. split.
  - intro F. destruct (SND F) as (path & rest & Q & NB & EN & C3 & EI & FB). exists path. split; auto.
    exists g. destruct EN as [[-> EP]|(c & w & -> & BC)].
    + rewrite app_nil_r in Q. clear EQ. subst q. assert (s = []).
      { rewrite TE, T1, !zlen_app in LT. destruct s; auto. rewrite zlen_cons in LT. pose proof (zlen_nonneg s). lia. }
      subst s. rewrite app_nil_r in RQ. subst r'. exists []. rewrite app_nil_r. split; [|auto].
      pose proof (payload_len p PO) as PL. rewrite PY. destruct RR as [->|[z' ->]]; auto. rewrite PY, !zlen_app, zlen_cons in PL. pose proof (zlen_nonneg z'). lia.
    + destruct RR as [->|[z' ->]].
      * exists ((c :: w) ++ s). split; [rewrite PY, RQ, Q, <- !app_assoc; reflexivity|]. split; auto. split; auto. right. exists c, (w ++ s). auto.
      * exists ((c :: w) ++ s ++ x00 :: z'). split; [rewrite PY, RQ, Q, <- !app_assoc; reflexivity|]. split; auto. split; auto. right. exists c, (w ++ s ++ x00 :: z'). auto.
  - intros path (g' & rest & PY' & LG' & NB & RB) FB.
    destruct (G5 g' LG') as [LG5' NG'].
    assert (g' = g /\ r = path ++ rest) as [-> RP].
    { rewrite PY in PY'. destruct (app_eq_len _ _ _ _ PY') as [A1 A2]; [lia|auto]. }
    assert (NP : no_nul path) by (apply url_b64_nonul, b64_forall; auto).
    (* the path within the text *)
    assert (R1 : exists rest1, r' = path ++ rest1 /\ (rest1 = [] -> rest = []) /\ (rest1 <> [] -> exists c w, rest1 = c :: w /\ blank c)).
    { destruct RR as [->|[z' RR]].
      - exists rest. split; auto. split; auto. intro NE. destruct RB as [->|RB]; [congruence|auto].
      - rewrite RR in RP. symmetry in RP. assert (NR' : no_nul r') by (intro I; apply NT; rewrite TG; apply in_or_app; auto).
        destruct (prefix_text path rest r' z' NP NR' RP) as (rest1 & -> & RE). exists rest1. split; auto.
        destruct RB as [->|(c & w & -> & BC)]; [destruct rest1; discriminate|].
        destruct rest1 as [|c' w']; cbn in RE; injection RE as -> RE.
        + exfalso. revert BC. vm_compute. intros [U|[U _]]; [discriminate|apply U; reflexivity].
        + split; [discriminate|]. intros _. eauto. }
    destruct R1 as (rest1 & R1 & RN & RC).
    assert (X1 : exists rest2, q = path ++ rest2 /\ ends (k_len p) path rest2).
    { destruct SQ as [->|(k & c & w & -> & ->)].
      - rewrite app_nil_r in RQ. subst r'. exists rest1. split; auto. destruct rest1 as [|c w].
        + left. split; auto. rewrite (RN eq_refl), app_nil_r in RP. pose proof (payload_len p PO) as PL. rewrite PY, RP, zlen_app in PL. lia.
        + right. apply RC. discriminate.
      - (* the blank at [k] is not in the path *)
        assert (E : path ++ rest1 = (k ++ " "%byte :: w) ++ s) by congruence.
        assert (LK : (length path <= length k)%nat).
        { destruct (Nat.le_gt_cases (length path) (length k)); auto. exfalso. apply NB.
          assert (P : path = firstn (length k) path ++ skipn (length k) path) by (symmetry; apply firstn_skipn).
          pose proof (f_equal (skipn (length k)) E) as K. rewrite <- app_assoc in K. rewrite (skipn_app _ k), skipn_all, Nat.sub_diag in K.
          cbn [app skipn] in K. rewrite skipn_app in K. destruct (skipn (length k) path) as [|c' w'] eqn:SV.
          { apply (f_equal (@length byte)) in SV. rewrite skipn_length in SV. cbn in SV. lia. }
          cbn [app] in K. injection K as -> _. rewrite P. apply Exists_app. right. left. vm_compute. auto. }
        assert (P : k = path ++ skipn (length path) k).
        { rewrite <- (firstn_skipn (length path) k) at 1. f_equal.
          pose proof (f_equal (firstn (length path)) E) as K. rewrite <- app_assoc in K. rewrite !firstn_app, firstn_all, Nat.sub_diag in K.
          replace (length path - length k)%nat with 0%nat in K by lia. cbn [firstn] in K. rewrite !app_nil_r in K. auto. }
        exists (skipn (length path) k ++ " "%byte :: w). split; [rewrite P at 1; rewrite <- app_assoc; reflexivity|].
        right. assert (E2 : rest1 = (skipn (length path) k ++ " "%byte :: w) ++ s).
        { rewrite P in E. rewrite <- !app_assoc in E. apply app_inv_head in E. rewrite <- app_assoc. exact E. }
        destruct RC as (c & w1 & RE & BC). { rewrite E2. destruct (skipn (length path) k); discriminate. }
        rewrite RE in E2. destruct (skipn (length path) k) as [|c' w']; cbn in E2; injection E2 as -> E2; [exists " "%byte, w; auto|exists c', (w' ++ " "%byte :: w); auto]. }
    destruct X1 as (rest2 & Q & EN). destruct (CMP path rest2 Q NB EN FB) as (A1 & A2 & A3). auto.
Qed.
