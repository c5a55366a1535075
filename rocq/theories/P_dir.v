(** Proofs about the run directory. *)
From Verif Require Import Bytes M_util P_bytes P_util S_dir M_dir.
From Coq Require Import Init.Byte List ZArith Bool Lia.
Import ListNotations.
Open Scope Z_scope.

Lemma cut_short (p : bytes) : zlen (ztake 1023 p) <= 1023.
Proof. unfold zlen, ztake. rewrite firstn_length. lia. Qed.

(** ** Names *)
Lemma names_from_app a : forall cur b, names_from cur (a ++ slash :: b) = names_from cur a ++ names b.
Proof.
  induction a as [|c a IH]; intros cur b.
  - cbn [app names_from]. change (beq slash slash) with true. cbv iota. unfold names. destruct cur; reflexivity.
  - cbn [app names_from]. destruct (beq c slash); [destruct cur|]; rewrite IH; reflexivity.
Qed.
Lemma names_app a b : names (a ++ slash :: b) = names a ++ names b.
Proof. apply names_from_app. Qed.
Lemma names_from_plain b : forall cur, ~ In slash b -> names_from cur b = match cur ++ b with [] => [] | x => [x] end.
Proof.
  induction b as [|c b IH]; intros cur N.
  - rewrite app_nil_r. destruct cur; reflexivity.
  - cbn [names_from]. destruct (beq c slash) eqn:E.
    + apply beq_eq in E. subst. exfalso. apply N. now left.
    + rewrite IH; [|intro; apply N; now right]. rewrite <- app_assoc. reflexivity.
Qed.
Lemma names_plain b : ~ In slash b -> names b = match b with [] => [] | _ => [b] end.
Proof. intro N. unfold names. rewrite names_from_plain by auto. destruct b; reflexivity. Qed.
Lemma names_slash a : names (a ++ [slash]) = names a.
Proof. rewrite names_app. apply app_nil_r. Qed.
Lemma chop_names p : names (chop_char p slash) = names p.
Proof.
  unfold chop_char. destruct (rev p) as [|x [|y r]] eqn:E; auto. destruct (beq x slash) eqn:B; auto. apply beq_eq in B. subst.
  rewrite <- (rev_involutive p), E. symmetry. apply names_slash.
Qed.
Lemma chop_case p : chop_char p slash = p \/ p = chop_char p slash ++ [slash].
Proof.
  unfold chop_char. destruct (rev p) as [|x [|y r]] eqn:E; auto. destruct (beq x slash) eqn:B; auto. apply beq_eq in B. subst.
  right. rewrite <- (rev_involutive p), E. reflexivity.
Qed.

(** ** The walk *)
Section Kernel.
Variable ok : bytes -> bool.
Lemma walk_app t a : forall d b, walk ok t d (a ++ b) = match walk ok t d a with
    | inl f => inl f
    | inr n => match b with [] => inr n | x :: r => match n with Dir true _ => if ok x then walk ok t (d ++ a ++ [x]) r else inl Trouble | _ => inl Trouble end end
    end.
Proof.
  induction a as [|x a IH]; intros d b.
  - cbn [app]. destruct b as [|y b]; cbn [walk]; destruct (t d); auto.
  - cbn [app walk]. destruct (t d) as [[[|] w|]|]; auto. destruct (ok x); auto. rewrite IH.
    destruct (walk ok t (d ++ [x]) a); auto. destruct b; auto. now rewrite <- app_assoc.
Qed.
Lemma walk_here t l : forall d n, walk ok t d l = inr n -> t (d ++ l) = Some n.
Proof.
  induction l as [|x l IH]; intros d n; cbn [walk].
  - rewrite app_nil_r. destruct (t d); [intros [= ->]; auto|discriminate].
  - destruct (t d) as [[[|] w|]|]; try discriminate. destruct (ok x); [|discriminate]. intro W. apply IH in W. rewrite <- app_assoc in W. exact W.
Qed.
Lemma walk_more (t t' : tree) (G : forall q n, t q = Some n -> t' q = Some n) l : forall d n, walk ok t d l = inr n -> walk ok t' d l = inr n.
Proof.
  induction l as [|x l IH]; intros d n; cbn [walk].
  - destruct (t d) eqn:E; [|discriminate]. now rewrite (G _ _ E).
  - destruct (t d) as [nd|] eqn:E; [|discriminate]. rewrite (G _ _ E). destruct nd as [[|] w|]; try discriminate. destruct (ok x); [apply IH|discriminate].
Qed.
Lemma with_dir_here l t : with_dir l t l = Some (Dir true true).
Proof. unfold with_dir. destruct (list_eq_dec _ l l); congruence. Qed.
Lemma with_dir_else l t q : q <> l -> with_dir l t q = t q.
Proof. unfold with_dir. destruct (list_eq_dec _ q l); congruence. Qed.

Lemma only_refl l t : only_makes l t t.
Proof. split; auto. intros; congruence. Qed.
Lemma only_trans l a b c : only_makes l a b -> only_makes l b c -> only_makes l a c.
Proof.
  intros [G1 N1] [G2 N2]. split; [auto|]. intros q n E H. destruct (b q) as [m|] eqn:B.
  - rewrite (G2 _ _ B) in H. injection H as <-. apply (N1 q m); auto.
  - apply (N2 q n); auto.
Qed.
(** mkdir *)
Lemma mkdir_only p l s : on_the_way (names p) l -> only_makes l (fst s) (fst (snd (mkdir ok p s))).
Proof.
  intro O. destruct s as [t fs]. unfold mkdir. cbn [fst]. destruct (walk ok t [] (removelast (names p))) as [|[[|] [|]|]]; try apply only_refl.
  destruct (names p) as [|x r] eqn:E; [apply only_refl|]. rewrite <- E in *. destruct (_ && _) eqn:B; [|apply only_refl].
  cbn [fst snd]. apply andb_true_iff in B as [_ B]. destruct (t (names p)) eqn:T; [discriminate|]. split.
  - intros q n H. rewrite with_dir_else; auto. congruence.
  - intros q n H W. destruct (list_eq_dec (list_eq_dec Byte.byte_eq_dec) q (names p)) as [->|N].
    + rewrite with_dir_here in W. injection W as <-. auto.
    + rewrite with_dir_else in W; auto. congruence.
Qed.
Lemma mkdir_there p s s' : mkdir ok p s = (true, s') -> walk ok (fst s') [] (names p) = inr (Dir true true).
Proof.
  destruct s as [t fs]. unfold mkdir. destruct (walk ok t [] (removelast (names p))) as [|[[|] [|]|]] eqn:W; try discriminate.
  destruct (names p) as [|x r] eqn:E; [discriminate|]. rewrite <- E in *. assert (NE : names p <> []) by congruence.
  destruct (_ && _) eqn:B; [|discriminate]. intros [= <-]. cbn [fst].
  apply andb_true_iff in B as [B T]. apply andb_true_iff in B as [_ OK]. destruct (t (names p)) eqn:TN; [discriminate|].
  rewrite (app_removelast_last [] NE) at 2. rewrite walk_app.
  rewrite (walk_more t (with_dir (names p) t)) with (n := Dir true true); auto.
  - rewrite OK. cbn [walk app]. rewrite <- (app_removelast_last [] NE), with_dir_here. reflexivity.
  - intros q n H. rewrite with_dir_else; auto. congruence.
Qed.

Lemma stat_dir t p a b : stat ok t p = inr (Dir a b) <-> walk ok t [] (names p) = inr (Dir a b).
Proof. unfold stat. destruct (walk ok t [] (names p)) as [|[|]]; try tauto. destruct (ends_in_slash p); split; discriminate. Qed.
Lemma stat_noent t p : stat ok t p = inl Noent <-> walk ok t [] (names p) = inl Noent.
Proof. unfold stat. destruct (walk ok t [] (names p)) as [|[|]]; try tauto. destruct (ends_in_slash p); split; discriminate. Qed.

(** ** The loop *)
Lemma parts_spec l : forall rest filled pre s, names (pre ++ rest) = l ->
  (filled = true \/ walk ok (fst s) [] l = inl Noent) ->
  exists b s', parts ok filled pre rest s = Ok (b, s') /\ only_makes l (fst s) (fst s').
Proof.
  induction rest as [|c r IH]; intros filled pre s E F; cbn [parts].
  - exists true, s. split; auto. apply only_refl.
  - assert (E' : names ((pre ++ [c]) ++ r) = l) by now rewrite <- app_assoc.
    destruct (beq c slash) eqn:B; [|apply IH; auto]. apply beq_eq in B. subst c.
    pose proof E as EN. rewrite names_app in EN.
    assert (GO : forall s', only_makes l (fst s) (fst s') -> exists b s'', parts ok true (pre ++ [slash]) r s' = Ok (b, s'') /\ only_makes l (fst s) (fst s'')).
    { intros s' G. destruct (IH true (pre ++ [slash]) s' E' (or_introl eq_refl)) as (b & s'' & R & G'). exists b, s''. split; auto. eapply only_trans; eauto. }
    destruct (stat ok (fst s) pre) as [[|]|[a b|]] eqn:S.
    + destruct (mkdir ok pre s) as [made s1] eqn:M.
      assert (G1 : only_makes l (fst s) (fst s1)) by (pose proof (mkdir_only pre l s (ex_intro _ (names r) (eq_sym EN))) as Q; rewrite M in Q; exact Q).
      destruct made; [|exists false, s1; auto]. destruct (stat ok (fst s1) pre) as [|[|]]; [exists false, s1; auto|auto|exists false, s1; auto].
    + destruct filled; [apply GO, only_refl|]. destruct F as [F|F]; [discriminate|]. exfalso.
      rewrite <- EN, walk_app in F. unfold stat in S. destruct (walk ok (fst s) [] (names pre)) as [f|n]; [congruence|].
      destruct n as [|]; [discriminate|]. destruct (names r); discriminate.
    + apply GO, only_refl.
    + exists false, s. split; auto. apply only_refl.
Qed.

Lemma chop_nonempty p : 2 <= zlen p -> chop_char p slash <> [].
Proof.
  intros L Q. destruct (chop_case p) as [C|C]; rewrite Q in C; [rewrite <- C in L|rewrite C in L]; vm_compute in L; auto.
Qed.
Lemma make_spec p s : 2 <= zlen p <= 1023 -> walk ok (fst s) [] (names p) = inl Noent ->
  exists b s', make_dir_path ok p s = Ok (b, s') /\ only_makes (names p) (fst s) (fst s') /\
    (b = true -> walk ok (fst s') [] (names p) = inr (Dir true true)).
Proof.
  intros [L1 L2] W. unfold make_dir_path. change (MAX_PATH_LEN - 1) with 1023. rewrite ztake_all by lia. cbv zeta.
  pose proof (chop_nonempty p L1) as NE. pose proof (chop_names p) as CN. destruct (chop_char p slash) as [|c r] eqn:C; [easy|].
  destruct (parts_spec (names p) r false [c] s) as (b & s1 & R & G); auto. rewrite R.
  destruct b; [|exists false, s1; split; auto; split; auto; discriminate].
  destruct (mkdir ok (c :: r) s1) as [made s2] eqn:M.
  assert (O : on_the_way (names (c :: r)) (names p)) by (exists []; now rewrite app_nil_r, CN).
  pose proof (mkdir_only (c :: r) (names p) s1 O) as G2. rewrite M in G2. cbn [snd] in G2.
  exists made, s2. split; auto. split; [eapply only_trans; eauto|]. intros ->. apply mkdir_there in M. now rewrite <- CN.
Qed.
Lemma check_spec p s : zlen p <= 1023 ->
  exists b s', check_dir_path ok p s = Ok (b, s') /\ only_makes (names p) (fst s) (fst s') /\
    (b = true -> hd x00 p = slash /\ (p = [slash] \/ exists x w, stat ok (fst s') p = inr (Dir x w))).
Proof.
  intro L. unfold check_dir_path. change (MAX_PATH_LEN - 1) with 1023. rewrite ztake_all by lia. cbv zeta.
  destruct (beq (hd x00 p) slash) eqn:H; cbn [negb].
  2:{ exists false, s. split; auto. split; [apply only_refl|discriminate]. }
  apply beq_eq in H.
  destruct (zlen p <? 2) eqn:Z2.
  { exists true, s. split; auto. split; [apply only_refl|]. intros _. split; auto. left. destruct p as [|c [|d p]]; [discriminate|cbn in H; congruence|].
    rewrite !zlen_cons in Z2. pose proof (zlen_nonneg p). apply Z.ltb_lt in Z2. lia. }
  apply Z.ltb_ge in Z2.
  destruct (stat ok (fst s) p) as [[|]|[a b|]] eqn:S.
  - apply stat_noent in S. destruct (make_spec p s ltac:(lia) S) as (b & s' & R & G & T). exists b, s'. split; auto. split; auto.
    intro Q. split; auto. right. exists true, true. apply stat_dir. auto.
  - exists false, s. split; auto. split; [apply only_refl|discriminate].
  - exists true, s. split; auto. split; [apply only_refl|]. intros _. split; auto. right. eauto.
  - exists false, s. split; auto. split; [apply only_refl|discriminate].
Qed.

(** ** When it is made *)
Lemma mkdir_ok p t (d x : list bytes) n : names p = d ++ [n] -> walk ok t [] d = inr (Dir true true) -> ok n = true -> t (d ++ [n]) = None ->
  mkdir ok p (t, []) = (true, (with_dir (d ++ [n]) t, [])).
Proof.
  intros E W O T. unfold mkdir. rewrite E, removelast_last, last_last, W. destruct (d ++ [n]) eqn:Q; [destruct d; discriminate|]. rewrite <- Q in *.
  rewrite O, T. reflexivity.
Qed.
Lemma parts_made l : (forall n, In n l -> ok n = true) ->
  forall rest filled a b t, names (a ++ b ++ rest) = l -> ~ In slash b ->
  walk ok t [] (names a) = inr (Dir true true) -> (a = [] \/ exists a', a = a' ++ [slash]) -> usable l t -> t l = None ->
  (rest = [] -> b <> []) -> (rest <> [] -> last rest x00 <> slash) ->
  exists t' d n, parts ok filled (a ++ b) rest (t, []) = Ok (true, (t', [])) /\ l = d ++ [n] /\ walk ok t' [] d = inr (Dir true true) /\ t' l = None.
Proof.
  intros OK. induction rest as [|c r IH]; intros filled a b t E NB W HA U TL B0 LA; cbn [parts].
  - rewrite app_nil_r in E. exists t, (names a), b. split; auto. specialize (B0 eq_refl).
    assert (E' : l = names a ++ [b]).
    { rewrite <- E. destruct HA as [->|[a' ->]].
      - cbn [app names names_from]. rewrite names_plain by auto. destruct b; [easy|reflexivity].
      - rewrite <- app_assoc. cbn [app]. rewrite names_app, names_slash. rewrite (names_plain b) by auto. destruct b; [easy|reflexivity]. }
    auto.
  - assert (LR : r <> [] -> last r x00 <> slash) by (intro N; specialize (LA ltac:(discriminate)); destruct r; [easy|exact LA]).
    destruct (beq c slash) eqn:BC.
    2:{ replace ((a ++ b) ++ [c]) with (a ++ (b ++ [c])) by now rewrite app_assoc. apply IH; auto.
        - rewrite <- E. rewrite <- !app_assoc. reflexivity.
        - intro I. apply in_app_or in I as [I|[I|[]]]; auto. subst c. discriminate.
        - intros _ Q. destruct b; discriminate. }
    apply beq_eq in BC. subst c. assert (NR : r <> []) by (intros ->; apply (LA ltac:(discriminate)); reflexivity).
    assert (EB : names (a ++ b) = names a ++ match b with [] => [] | _ => [b] end).
    { destruct HA as [->|[a' ->]]; [cbn [app names names_from]; apply names_plain; auto|].
      rewrite <- app_assoc. cbn [app]. rewrite names_app, names_slash. f_equal. apply names_plain; auto. }
    assert (EL : l = names (a ++ b) ++ names r) by (rewrite <- E, app_assoc, names_app; reflexivity).
    assert (NN : names r <> []).
    { intro Q. assert (X : r = removelast r ++ [last r x00]) by now apply app_removelast_last. specialize (LR NR).
      revert Q. rewrite X. set (y := last r x00) in *. generalize (removelast r). intro z.
      assert (H : forall cur, names_from cur (z ++ [y]) <> []); [|apply H]. induction z as [|k z IZ]; intros cur; cbn [app names_from].
      - destruct (beq y slash) eqn:Y; [apply beq_eq in Y; easy|]. destruct (cur ++ [y]) eqn:Q; [destruct cur; discriminate|discriminate].
      - destruct (beq k slash); [destruct cur; [apply IZ|discriminate]|apply IZ]. }
    assert (E2 : names ((a ++ b ++ [slash]) ++ [] ++ r) = l) by (rewrite <- E; cbn [app]; rewrite <- !app_assoc; reflexivity).
    assert (N2 : names (a ++ b ++ [slash]) = names (a ++ b)) by (rewrite app_assoc; apply names_slash).
    assert (NEXT : forall t', walk ok t' [] (names (a ++ b)) = inr (Dir true true) -> usable l t' -> t' l = None ->
      exists t'' d n, parts ok true ((a ++ b) ++ [slash]) r (t', []) = Ok (true, (t'', [])) /\ l = d ++ [n] /\ walk ok t'' [] d = inr (Dir true true) /\ t'' l = None).
    { intros t' W' U' TL'. replace ((a ++ b) ++ [slash]) with ((a ++ b ++ [slash]) ++ []) by (rewrite app_nil_r, app_assoc; reflexivity).
      apply IH; auto; try (now rewrite N2); try (right; exists (a ++ b); now rewrite app_assoc). }
    cbn [fst].
    destruct b as [|b0 b1] eqn:EQB.
    + rewrite !app_nil_r in *. rewrite (proj2 (stat_dir t a true true) W). apply NEXT; auto.
    + rewrite <- EQB in *. assert (EB' : names (a ++ b) = names a ++ [b]) by (rewrite EB; destruct b; [easy|reflexivity]). clear EB.
      assert (OB : ok b = true) by (apply OK; rewrite EL, EB'; apply in_or_app; left; apply in_or_app; right; now left).
      assert (WB : walk ok t [] (names (a ++ b)) = match t (names a ++ [b]) with Some n => inr n | None => inl Noent end).
      { rewrite EB', walk_app, W, OB. reflexivity. }
      destruct (U (names (a ++ b))) as [T|T]; [exists (names r); exact EL| |].
      * rewrite EB' in T. rewrite T in WB. rewrite (proj2 (stat_noent t (a ++ b)) WB).
        rewrite (mkdir_ok (a ++ b) t (names a) [] b EB' W OB T).
        pose proof (mkdir_there (a ++ b) (t, []) _ (mkdir_ok (a ++ b) t (names a) [] b EB' W OB T)) as WT. cbn [fst] in WT |- *.
        rewrite (proj2 (stat_dir _ _ true true) WT). apply NEXT; auto.
        -- intros q O. destruct (list_eq_dec (list_eq_dec Byte.byte_eq_dec) q (names a ++ [b])) as [->|N]; [right; apply with_dir_here|].
           rewrite with_dir_else by auto. now apply U.
        -- rewrite with_dir_else; auto. intro Q. rewrite EL, EB' in Q. rewrite <- (app_nil_r (names a ++ [b])) in Q at 2. apply app_inv_head in Q. easy.
      * rewrite EB' in T. rewrite T in WB. rewrite (proj2 (stat_dir t (a ++ b) true true) WB). apply NEXT; auto.
Qed.

Lemma walk_usable l t : tree_ok t -> usable l t -> (forall n, In n l -> ok n = true) -> forall d r, l = d ++ r ->
  walk ok t [] d = inr (Dir true true) -> t l <> None -> walk ok t [] l = inr (Dir true true).
Proof.
  intros TK U OK d r. revert d. induction r as [|x r IH]; intros d E W TL.
  - rewrite app_nil_r in E. now subst.
  - apply (IH (d ++ [x])); auto; [now rewrite <- app_assoc|]. rewrite walk_app, W, OK by (rewrite E; apply in_or_app; right; now left).
    cbn [app walk]. destruct (U (d ++ [x])) as [T|T]; [exists r; now rewrite <- app_assoc| |now rewrite T].
    exfalso. apply TL. rewrite E. clear -T TK. replace (d ++ x :: r) with ((d ++ [x]) ++ r) by now rewrite <- app_assoc. generalize dependent (d ++ [x]). intros q T.
    induction r as [|y r IH] using rev_ind; [now rewrite app_nil_r|]. destruct (t (q ++ r ++ [y])) eqn:Q; auto.
    destruct (TK (q ++ r) y) as (s & w & X); [rewrite <- app_assoc; congruence|]. congruence.
Qed.
Theorem check_made p t : zlen p <= 1023 -> hd x00 p = slash -> (forall a, p <> a ++ [slash; slash]) -> tree_ok t -> t [] = Some (Dir true true) ->
  usable (names p) t -> (forall n, In n (names p) -> ok n = true) ->
  exists t', check_dir_path ok p (t, []) = Ok (true, (t', [])).
Proof.
  intros L H ND TK T0 U OK. unfold check_dir_path. change (MAX_PATH_LEN - 1) with 1023. rewrite ztake_all by lia. cbv zeta.
  rewrite H. change (beq slash slash) with true. cbn [negb].
  destruct (zlen p <? 2) eqn:Z2; [eauto|]. apply Z.ltb_ge in Z2.
  assert (R0 : walk ok t [] [] = inr (Dir true true)) by (cbn [walk]; now rewrite T0).
  destruct (t (names p)) as [nd|] eqn:TP.
  { cbn [fst]. rewrite (proj2 (stat_dir t p true true)); eauto. apply (walk_usable (names p) t TK U OK [] (names p)); auto. congruence. }
  cbn [fst].
  assert (NS : walk ok t [] (names p) = inl Noent).
  { clear H ND L Z2. revert TP. assert (G : forall r d, names p = d ++ r -> walk ok t [] d = inr (Dir true true) -> t (names p) = None -> walk ok t [] (names p) = inl Noent); [|intro; apply (G (names p) []); auto].
    induction r as [|x r IH]; intros d E W TP.
    - rewrite app_nil_r in E. rewrite <- E in W. apply walk_here in W. cbn [app] in W. congruence.
    - assert (OX : ok x = true) by (apply OK; rewrite E; apply in_or_app; right; now left).
      assert (EX : walk ok t [] (d ++ [x]) = match t (d ++ [x]) with Some n => inr n | None => inl Noent end) by (rewrite walk_app, W, OX; reflexivity).
      destruct (U (d ++ [x])) as [T|T]; [exists r; now rewrite <- app_assoc| |].
      + rewrite E. replace (d ++ x :: r) with ((d ++ [x]) ++ r) by now rewrite <- app_assoc. rewrite walk_app, EX, T. reflexivity.
      + apply (IH (d ++ [x])); auto; [now rewrite <- app_assoc|]. now rewrite EX, T. }
  rewrite (proj2 (stat_noent t p) NS). unfold make_dir_path. change (MAX_PATH_LEN - 1) with 1023. rewrite ztake_all by lia. cbv zeta.
  pose proof (chop_nonempty p Z2) as NE. pose proof (chop_names p) as CN.
  assert (LC : last (chop_char p slash) x00 <> slash).
  { unfold chop_char. destruct (rev p) as [|x [|y r]] eqn:E; pose proof (rev_involutive p) as RI; rewrite E in RI; cbn [rev app] in RI.
    - subst p. exfalso. vm_compute in Z2. auto.
    - subst p. exfalso. vm_compute in Z2. auto.
    - destruct (beq x slash) eqn:B.
      + apply beq_eq in B. subst x. cbn [rev]. rewrite last_last. intros ->. apply (ND (rev r)). rewrite <- RI, <- app_assoc. reflexivity.
      + rewrite <- RI, last_last. intros ->. discriminate. }
  assert (HC : exists r, chop_char p slash = slash :: r /\ r <> []).
  { destruct (chop_char p slash) as [|c r] eqn:C; [easy|]. destruct (chop_case p) as [Q|Q]; rewrite C in Q.
    - rewrite <- Q in H. cbn in H. subst c. exists r. split; auto. intros ->. cbn in LC. easy.
    - rewrite Q in H. cbn in H. subst c. exists r. split; auto. intros ->. cbn in LC. easy. }
  destruct HC as (r & C & NR). rewrite C in *.
  destruct (parts_made (names p) OK r false [slash] [] t) as (t' & d & n & R & E & W & TL); auto.
  - right. exists []. reflexivity.
  - intro N. destruct r; [easy|exact LC].
  - cbn [app] in R. rewrite R.
    rewrite (mkdir_ok (slash :: r) t' d [] n); [eauto|now rewrite CN|auto| |now rewrite <- E].
    apply OK. rewrite E. apply in_or_app. right. now left.
Qed.
Lemma check_long p s : check_dir_path ok p s = check_dir_path ok (ztake 1023 p) s.
Proof.
  unfold check_dir_path. change (MAX_PATH_LEN - 1) with 1023. cbv zeta.
  assert (H : hd x00 (ztake 1023 p) = hd x00 p) by (destruct p; reflexivity). rewrite H.
  rewrite (ztake_all 1023 (ztake 1023 p)) by apply cut_short. reflexivity.
Qed.
End Kernel.
