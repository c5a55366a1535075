(** Proofs about the address that the client looks up (M_resolve): answers. *)
From Verif Require Import Bytes M_util M_message M_codec M_cipher M_ctx M_incoming M_client M_resolve S_text S_resolve
  P_bytes P_util P_message P_incoming5.
From Coq Require Import Init.Byte List ZArith Bool Lia.
Import ListNotations.
Open Scope Z_scope.

Lemma ztake_min {A} n (l : list A) : 0 <= n -> zlen (ztake n l) = Z.min n (zlen l).
Proof. intro N. destruct (Z_le_gt_dec n (zlen l)); [rewrite zlen_ztake by lia; lia|rewrite ztake_all by lia; lia]. Qed.
Lemma ztake_app_ge {A} n (a b : list A) : zlen a <= n -> ztake n (a ++ b) = a ++ ztake (n - zlen a) b.
Proof.
  intro L. unfold ztake, zlen in *. rewrite firstn_app. rewrite (firstn_all2 a) by lia. do 2 f_equal. lia.
Qed.
Lemma digit_run_spec s : exists rest, s = digit_run s ++ rest /\ all_digits (digit_run s) /\ (rest = [] \/ ~ digit (hd x00 rest)).
Proof.
  induction s as [|c r IH]; cbn [digit_run]; [exists []; repeat split; auto; constructor|].
  destruct (isdigit c) eqn:D.
  - destruct IH as (rest & E & A & R). exists rest. split; [cbn; congruence|]. split; [constructor; [apply isdigit_digit; auto|auto]|auto].
  - exists (c :: r). split; [auto|]. split; [constructor|]. right. cbn. intro Q. apply isdigit_digit in Q. congruence.
Qed.
Lemma digit_run_app ds rest : all_digits ds -> (rest = [] \/ ~ digit (hd x00 rest)) -> digit_run (ds ++ rest) = ds.
Proof.
  intros A R. induction A as [|c ds D A IH]; cbn [app digit_run].
  - destruct R as [->|R]; [auto|]. destruct rest as [|c r]; cbn [digit_run]; [auto|]. destruct (isdigit c) eqn:E; [|auto].
    apply isdigit_digit in E. destruct (R E).
  - apply isdigit_digit in D. rewrite D. f_equal. exact IH.
Qed.
Lemma scan_u_app ds rest : all_digits ds -> ds <> [] -> (rest = [] \/ ~ digit (hd x00 rest)) -> scan_u (ds ++ rest) = Some (i32 (decimal ds), rest).
Proof.
  intros A N R. unfold scan_u. rewrite digit_run_app by auto. destruct ds as [|c ds]; [destruct (N eq_refl)|].
  rewrite digits_val_decimal by auto. f_equal. f_equal. apply zdrop_app. reflexivity.
Qed.
Lemma scan_u_some s n rest : scan_u s = Some (n, rest) -> exists ds, s = ds ++ rest /\ ds <> [] /\ all_digits ds /\ n = i32 (decimal ds) /\
  (rest = [] \/ ~ digit (hd x00 rest)).
Proof.
  intro E. destruct (digit_run_spec s) as (r & S1 & A & R). unfold scan_u in E. destruct (digit_run s) as [|c ds] eqn:D; [discriminate E|].
  assert (Z : zdrop (zlen (c :: ds)) s = r) by (rewrite S1; apply zdrop_app; reflexivity). rewrite Z, digits_val_decimal in E by auto.
  injection E as <- <-. exists (c :: ds). split; [auto|]. split; [discriminate|]. auto.
Qed.
Lemma octet_iff n : octet (i32 n) = true <-> n mod 4294967296 <= 255.
Proof.
  unfold octet, i32. rewrite andb_true_iff, !Z.leb_le. pose proof (Z.div_mod n 4294967296 ltac:(lia)). pose proof (Z.mod_pos_bound n 4294967296 ltac:(lia)).
  pose proof (Z.div_mod (n + 2147483648) 4294967296 ltac:(lia)). pose proof (Z.mod_pos_bound (n + 2147483648) 4294967296 ltac:(lia)).
  split; intros; [|]; nia.
Qed.
Lemma scan_dot_some s r : scan_dot s = Some r -> s = "."%byte :: r.
Proof.
  destruct s as [|c t]; cbn; [discriminate|]. destruct (beq c "."%byte) eqn:E; [|discriminate]. intro Q. injection Q as <-. apply beq_eq in E. subst c. reflexivity.
Qed.
Lemma not_digit_dot : ~ digit "."%byte.
Proof. unfold digit. vm_compute. intuition discriminate. Qed.

Lemma is_quad_iff s : is_quad s = true <-> four_numbers s.
Proof.
  split.
  - unfold is_quad. intro E.
    destruct (scan_u s) as [[a s1]|] eqn:E1; [|discriminate E]. destruct (scan_dot s1) as [s1'|] eqn:D1; [|discriminate E].
    destruct (scan_u s1') as [[b s2]|] eqn:E2; [|discriminate E]. destruct (scan_dot s2) as [s2'|] eqn:D2; [|discriminate E].
    destruct (scan_u s2') as [[c s3]|] eqn:E3; [|discriminate E]. destruct (scan_dot s3) as [s3'|] eqn:D3; [|discriminate E].
    destruct (scan_u s3') as [[d s4]|] eqn:E4; [|discriminate E].
    apply scan_dot_some in D1, D2, D3. subst s1 s2 s3.
    apply scan_u_some in E1 as (A & -> & NA & DA & -> & _). apply scan_u_some in E2 as (B & -> & NB & DB & -> & _).
    apply scan_u_some in E3 as (C & -> & NC & DC & -> & _). apply scan_u_some in E4 as (D & -> & ND & DD & -> & R).
    rewrite !andb_true_iff, !octet_iff in E. destruct E as [[[OA OB] OC] OD].
    exists A, B, C, D, s4. cbn [app]. split; [reflexivity|]. unfold small. auto 10.
  - intros (A & B & C & D & more & -> & (NA & DA & OA) & (NB & DB & OB) & (NC & DC & OC) & (ND & DD & OD) & R).
    unfold is_quad. rewrite (scan_u_app A) by (auto; right; exact not_digit_dot). cbn [app scan_dot]. rewrite beq_refl.
    change (B ++ ["."%byte] ++ C ++ ["."%byte] ++ D ++ more) with (B ++ "."%byte :: C ++ "."%byte :: D ++ more).
    rewrite (scan_u_app B) by (auto; right; exact not_digit_dot). cbn [app scan_dot]. rewrite beq_refl.
    rewrite (scan_u_app C) by (auto; right; exact not_digit_dot). cbn [app scan_dot]. rewrite beq_refl.
    rewrite (scan_u_app D) by auto. rewrite !andb_true_iff, !octet_iff. auto.
Qed.

Lemma addr_char_iff c : isdigit c || beq c "."%byte = true <-> address_char c.
Proof. unfold address_char. rewrite orb_true_iff, isdigit_digit, beq_eq. reflexivity. Qed.
Lemma ip_chars_spec n : forall s, exists rest, s = ip_chars n s ++ rest /\ Forall address_char (ip_chars n s) /\ zlen (ip_chars n s) <= Z.of_nat n /\
  (rest = [] \/ ~ address_char (hd x00 rest) \/ zlen (ip_chars n s) = Z.of_nat n).
Proof.
  induction n as [|n IH]; intro s.
  - exists s. cbn. repeat split; auto; try constructor. change (zlen (@nil byte)) with 0. lia.
  - destruct s as [|c r]; cbn [ip_chars].
    + exists []. repeat split; auto; try constructor. change (zlen (@nil byte)) with 0. lia.
    + destruct (isdigit c || beq c "."%byte) eqn:E.
      * destruct (IH r) as (rest & S1 & F & L & R). exists rest. split; [cbn; congruence|]. split; [constructor; [apply addr_char_iff; auto|auto]|].
        rewrite zlen_cons. split; [lia|]. destruct R as [R|[R|R]]; auto. right. right. lia.
      * exists (c :: r). split; [auto|]. split; [constructor|]. split; [change (zlen (@nil byte)) with 0; lia|]. right. left. cbn. intro Q. apply addr_char_iff in Q. congruence.
Qed.
Lemma ip_chars_app n : forall run rest, Forall address_char run -> zlen run <= Z.of_nat n -> (rest = [] \/ ~ address_char (hd x00 rest) \/ zlen run = Z.of_nat n) ->
  ip_chars n (run ++ rest) = run.
Proof.
  induction n as [|n IH]; intros run rest F L R.
  - destruct run as [|c run]; [reflexivity|]. rewrite zlen_cons in L. pose proof (zlen_nonneg run). lia.
  - destruct run as [|c run]; cbn [app ip_chars].
    + destruct rest as [|c r]; [reflexivity|]. destruct R as [R|[R|R]]; [discriminate R| |change (zlen (@nil byte)) with 0 in R; lia].
      destruct (isdigit c || beq c "."%byte) eqn:E; [|reflexivity]. apply addr_char_iff in E. destruct (R E).
    + inversion F as [|? ? F1 F2]; subst. apply addr_char_iff in F1. rewrite F1. f_equal. rewrite zlen_cons in *. apply IH; [auto|lia|].
      destruct R as [R|[R|R]]; auto. right. right. lia.
Qed.
Lemma address_in_iff s ip : address_in s = Some ip <-> names s ip.
Proof.
  unfold address_in, names. destruct (ip_chars_spec (Z.to_nat IPV4_LEN) s) as (rest & S1 & F & L & R).
  change (Z.of_nat (Z.to_nat IPV4_LEN)) with 16 in *. split.
  - destruct (is_quad _) eqn:Q; [|discriminate]. intro E. injection E as <-. apply is_quad_iff in Q.
    exists (ip_chars (Z.to_nat IPV4_LEN) s), rest. repeat split; auto.
  - intros (run & r & -> & F1 & L1 & R1 & Q & ->). rewrite (ip_chars_app (Z.to_nat IPV4_LEN) run r) by auto. apply is_quad_iff in Q. rewrite Q. reflexivity.
Qed.

(** What stops the scan does not matter. *)
Lemma ip_chars_cut n : forall s t, (t = [] \/ ~ address_char (hd x00 t)) -> ip_chars n (s ++ t) = ip_chars n s.
Proof.
  induction n as [|n IH]; intros s t T; [reflexivity|]. destruct s as [|c r]; cbn [app ip_chars].
  - destruct T as [->|T]; [auto|]. destruct t as [|c r]; [auto|]. destruct (isdigit c || beq c "."%byte) eqn:E; [|auto]. apply addr_char_iff in E. destruct (T E).
  - rewrite IH by auto. reflexivity.
Qed.
Lemma ip_chars_line n : forall s, ip_chars n (first_line n s) = ip_chars n s.
Proof.
  induction n as [|n IH]; intro s; [reflexivity|]. destruct s as [|c r]; cbn [first_line]; [reflexivity|]. destruct (beq c x0a) eqn:E.
  - apply beq_eq in E. subst c. reflexivity.
  - cbn [ip_chars]. rewrite IH. reflexivity.
Qed.
Lemma address_in_line s : address_in (cstr (first_line (Z.to_nat IPV4_LEN) s)) = address_in s.
Proof.
  unfold address_in. assert (E : ip_chars (Z.to_nat IPV4_LEN) (cstr (first_line (Z.to_nat IPV4_LEN) s)) = ip_chars (Z.to_nat IPV4_LEN) s).
  { rewrite <- (ip_chars_line (Z.to_nat IPV4_LEN) s). generalize (first_line (Z.to_nat IPV4_LEN) s). intro t.
    generalize (Z.to_nat IPV4_LEN). intro n. revert t. induction n as [|n IH]; intro t; [reflexivity|]. destruct t as [|c r]; [reflexivity|]. cbn [cstr].
    destruct (beq c x00) eqn:E; [apply beq_eq in E; subst c; reflexivity|]. cbn [ip_chars]. rewrite IH. reflexivity. }
  rewrite E. reflexivity.
Qed.

(** ** The pieces of an answer *)
Lemma collect_kept : forall pieces pos, 0 <= pos < 2000 ->
  exists k d, pieces = k ++ d /\ collect pos pieces = concat k /\ Forall (fun p => p <> []) k /\ pos + zlen (concat k) < 2000 /\
    match d with [] => True | p :: _ => p = [] \/ 2000 <= pos + zlen (concat k) + zlen p end.
Proof.
  induction pieces as [|p r IH]; intros pos P; cbn [collect].
  - exists [], []. cbn. change (zlen (@nil byte)) with 0. repeat split; auto. lia.
  - unfold HTTP_MAX_REQUEST_LEN, HTTP_MAX_RESPONSE_LEN. destruct (Z.eqb_spec (zlen (ztake 2000 p)) 0) as [Z0|Z0].
    + exists [], (p :: r). cbn. change (zlen (@nil byte)) with 0. repeat split; auto; [lia|]. left. destruct p as [|c p]; [auto|]. exfalso.
      assert (L : zlen (ztake 2000 (c :: p)) = Z.min 2000 (zlen (c :: p))) by (apply ztake_min; lia). rewrite zlen_cons in L. pose proof (zlen_nonneg p). lia.
    + assert (L : zlen (ztake 2000 p) = Z.min 2000 (zlen p)) by (apply ztake_min; lia). pose proof (zlen_nonneg p).
      destruct (pos + zlen (ztake 2000 p) >=? 2000) eqn:G.
      * exists [], (p :: r). cbn. change (zlen (@nil byte)) with 0. repeat split; auto; [lia|]. right. lia.
      * rewrite (ztake_all 2000 p) in * by lia. destruct (IH (pos + zlen p) ltac:(lia)) as (k & d & -> & C & F & B & D). exists (p :: k), d.
        split; [reflexivity|]. split; [cbn; congruence|]. split; [constructor; auto; intros ->; apply Z0; reflexivity|]. cbn [concat]. rewrite zlen_app.
        split; [lia|]. destruct d; [auto|]. destruct D; [auto|right; lia].
Qed.
Lemma kept_unique pieces t : kept pieces t -> forall pos k d, pieces = k ++ d -> pos = 0 -> Forall (fun p => p <> []) k -> pos + zlen (concat k) < 2000 ->
  match d with [] => True | p :: _ => p = [] \/ 2000 <= pos + zlen (concat k) + zlen p end -> t = concat k.
Proof.
  intros (k1 & d1 & E1 & -> & F1 & B1 & D1) pos k d E -> F B D.
  assert (G : forall n : Z, 0 <= n -> forall k1 k, k1 ++ d1 = k ++ d -> Forall (fun p : bytes => p <> []) k1 -> Forall (fun p : bytes => p <> []) k -> n + zlen (concat k1) < 2000 -> n + zlen (concat k) < 2000 ->
     match d1 with [] => True | p :: _ => p = [] \/ 2000 <= n + zlen (concat k1) + zlen p end ->
     match d with [] => True | p :: _ => p = [] \/ 2000 <= n + zlen (concat k) + zlen p end -> concat k1 = concat k).
  { clear. intros n N k1. revert n N. induction k1 as [|p k1 IH]; intros n N k E F1 F B1 B D1 D.
    - destruct k as [|q k]; [reflexivity|]. exfalso. cbn [app] in E. subst d1. inversion F; subst. cbn [concat] in *. rewrite zlen_app in *. change (zlen (@nil byte)) with 0 in *.
      pose proof (zlen_nonneg (concat k)). destruct D1; [contradiction|lia].
    - destruct k as [|q k].
      + exfalso. cbn [app] in E. subst d. inversion F1; subst. cbn [concat] in *. rewrite zlen_app in *. change (zlen (@nil byte)) with 0 in *.
        pose proof (zlen_nonneg (concat k1)). destruct D; [contradiction|lia].
      + cbn [app] in E. injection E as -> E. inversion F1; subst. inversion F; subst. cbn [concat] in *. f_equal. pose proof (zlen_nonneg q). rewrite zlen_app in *.
        apply (IH (n + zlen q)); auto; try lia; [destruct d1|destruct d]; auto; [destruct D1|destruct D]; auto; right; lia. }
  apply (G 0); auto; try lia; congruence.
Qed.
Lemma collect_iff pieces t : kept pieces t <-> collect 0 pieces = t.
Proof.
  destruct (collect_kept pieces 0 ltac:(lia)) as (k & d & E & C & F & B & D). split.
  - intro K. rewrite C. symmetry. apply (kept_unique pieces t K 0 k d); auto.
  - intros <-. rewrite C. exists k, d. repeat split; auto.
Qed.

Lemma strstr_first n a b : (forall x y, a ++ removelast n <> x ++ n ++ y) -> n <> [] -> strstr (fun c => c) n (a ++ n ++ b) = Some (n ++ b).
Proof.
  intros NO NE. destruct (strstr (fun c => c) n (a ++ n ++ b)) as [r|] eqn:E.
  - apply strstr_some in E as (a1 & h & b1 & S1 & -> & M & MN). rewrite map_id in M. subst h.
    assert (L : zlen a1 <= zlen a) by (apply (MN a n b); [auto|apply map_id]).
    destruct (Z.eq_dec (zlen a1) (zlen a)) as [Q|Q].
    + assert (a1 = a). { rewrite <- (ztake_app (zlen a1) a1 (n ++ b1) eq_refl), <- S1. apply ztake_app. auto. } subst a1. apply app_inv_head in S1. congruence.
    + exfalso. set (m := zlen a + zlen n - 1). 
      apply (NO a1 (ztake (m - zlen a1 - zlen n) b1)).
      pose proof (app_removelast_last x00 NE) as NL. assert (LN : zlen n = zlen (removelast n) + 1) by (rewrite NL at 1; rewrite zlen_app; reflexivity).
      assert (T1 : ztake m (a ++ n ++ b) = a ++ removelast n).
      { replace (a ++ n ++ b) with ((a ++ removelast n) ++ [last n x00] ++ b) by (rewrite <- app_assoc; f_equal; rewrite app_assoc, <- NL; reflexivity).
        apply ztake_app. rewrite zlen_app. unfold m. lia. }
      rewrite <- T1, S1. rewrite app_assoc. rewrite ztake_app_ge by (rewrite zlen_app; unfold m; lia). rewrite <- app_assoc. rewrite zlen_app. do 3 f_equal. lia.
  - exfalso. eapply strstr_none; [exact E|reflexivity|apply map_id].
Qed.

Lemma http_address_iff pieces ip : http_address pieces = Some ip <-> answer_names pieces ip.
Proof.
  unfold http_address. destruct (P_util2.cstr_prefix (collect 0 pieces)) as (z & CS & ZZ). split.
  - intro E. destruct (strstr _ _ _) as [r|] eqn:S1; [|discriminate E]. apply strstr_some in S1 as (a & h & b & S1 & -> & M & MN). rewrite map_id in M. subst h.
    apply address_in_iff in E. exists (collect 0 pieces), (cstr (collect 0 pieces)), z, a, b.
    split; [apply collect_iff; reflexivity|]. split; [exact CS|]. split; [apply cstr_no_nul|]. split; [destruct ZZ as [->|[u ->]]; auto|].
    split; [exact S1|]. split; [|exact E].
    intros x y Q. assert (L : zlen a <= zlen x). { apply (MN x blank_line (y ++ [x0a] ++ b)); [|apply map_id]. rewrite S1. change ([x0d; x0a; x0d; x0a] ++ b) with ([x0d; x0a; x0d] ++ [x0a] ++ b). rewrite app_assoc, Q, <- !app_assoc. reflexivity. }
    apply (f_equal zlen) in Q. rewrite !zlen_app in Q. change (zlen blank_line) with 4 in Q. change (zlen [x0d; x0a; x0d]) with 3 in Q. pose proof (zlen_nonneg y). lia.
  - intros (t & text & rest & header & body & K & -> & NN & R & -> & NO & NM). apply collect_iff in K. rewrite K.
    assert (CT : cstr ((header ++ blank_line ++ body) ++ rest) = header ++ blank_line ++ body).
    { destruct R as [->|R]; [rewrite app_nil_r; apply cstr_id; auto|]. destruct rest as [|c r]; [discriminate R|]. cbn in R. subst c. apply cstr_app_nul. auto. }
    rewrite CT. change [x0d; x0a; x0d; x0a] with blank_line. rewrite (strstr_first blank_line header body) by (auto; discriminate).
    replace (zdrop 4 (blank_line ++ body)) with body by (symmetry; apply zdrop_app; reflexivity). apply address_in_iff. auto.
Qed.
