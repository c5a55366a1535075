(** Proofs about the pf back end: texts, and the loop over a listing. *)
From Verif Require Import Bytes M_util M_message M_codec M_access M_cycle M_incoming M_packet M_fw M_pf
  S_text S_access S_incoming S_fw S_pf P_bytes P_util P_util2 P_fw P_fw2 P_fw3 P_incoming5.
From Coq Require Import Init.Byte List ZArith Bool Lia.
Import ListNotations.
Open Scope Z_scope.

(** ** Expiry *)
Lemma digits_head a b a' b' c : all_digits a -> all_digits a' -> ~ digit c -> a ++ c :: b = a' ++ c :: b' -> a = a'.
Proof.
  intros A A' NC. revert a' A'. induction A as [|x a DX A IH]; intros [|y a'] A' E; auto.
  - exfalso. inversion A'; subst. cbn in E. injection E as <- _. easy.
  - exfalso. cbn in E. injection E as -> _. easy.
  - cbn in E. injection E as -> E. f_equal. apply IH; auto. now inversion A'.
Qed.
Lemma quote_no_digit : ~ digit """"%byte. Proof. vm_compute. intuition. Qed.
Lemma until_fun x e e' : until x e -> until x e' -> e = e'.
Proof.
  intros (p & ds & q & E & U & (_ & A & V & _) & _) (p' & ds' & q' & E' & U' & (_ & A' & V' & _) & _).
  assert (p' = p) by (apply (U p' (ds' ++ [""""%byte] ++ q')); exact E'). subst p'.
  rewrite E in E'. apply app_inv_head in E'. apply app_inv_head in E'. cbn [app] in E'.
  assert (ds = ds') by (eapply digits_head; eauto using quote_no_digit). congruence.
Qed.
Lemma until_pos x e : until x e -> 0 < e.
Proof.
  intros (p & ds & q & _ & _ & N & L). destruct (Z_lt_le_dec 0 e); auto. exfalso.
  assert (0 <= e) by (destruct N as (_ & A & <- & _); apply decimal_bound; exact A).
  pose proof (numeral_zlen e ds 1 N ltac:(change (10 ^ 1) with 10; lia) ltac:(lia)). lia.
Qed.
Lemma exp_text_digits ds post : all_digits ds -> zlen ds = 10 -> exp_text (ds ++ """"%byte :: post) = ds.
Proof.
  intros A L. unfold exp_text.
  assert (T : ztake 11 (ds ++ """"%byte :: post) = ds ++ [""""%byte]).
  { unfold ztake. rewrite firstn_app. rewrite firstn_all2 by (unfold zlen in L; lia). f_equal.
    replace (Z.to_nat 11 - List.length ds)%nat with 1%nat by (unfold zlen in L; lia). reflexivity. }
  rewrite T. assert (C : chop_spaces (ds ++ [""""%byte]) = ds ++ [""""%byte]).
  { unfold chop_spaces. rewrite rev_app_distr. cbn [rev app]. destruct (rev ds) eqn:R.
    - exfalso. assert (ds = []) by (rewrite <- (rev_involutive ds), R; reflexivity). subst ds. discriminate L.
    - cbn [chop_spaces_rev]. change (beq """"%byte " "%byte) with false. cbn iota. rewrite <- R.
      change (""""%byte :: rev ds) with ([""""%byte] ++ rev ds). rewrite rev_app_distr, rev_involutive. reflexivity. }
  rewrite C. unfold chop_quote. rewrite last_app1, beq_refl, zlen_app, L. change (zlen [""""%byte]) with 1. cbn. apply removelast_last.
Qed.

(** ** Lines *)
Lemma lines_cons x rs : lines (x :: rs) = x ++ x0a :: lines rs.
Proof. unfold lines. cbn [map concat]. rewrite <- app_assoc. reflexivity. Qed.
Lemma lines_app a b : lines (a ++ b) = lines a ++ lines b.
Proof. unfold lines. rewrite map_app, concat_app. reflexivity. Qed.
Lemma lines_one x : lines [x] = x ++ [x0a]. Proof. unfold lines. cbn. now rewrite app_nil_r. Qed.
Lemma zlen_lines rs : zlen rs <= zlen (lines rs).
Proof.
  induction rs as [|x rs IH]; [reflexivity|]. rewrite lines_cons, zlen_app, !zlen_cons. pose proof (zlen_nonneg x). lia.
Qed.
Lemma lines_no_nul rs : Forall (fun x => ~ In x00 x) rs -> no_nul (lines rs).
Proof.
  induction 1 as [|x rs N F IH]; [apply no_nul_nil|]. rewrite lines_cons. apply no_nul_app. split; [exact N|]. apply no_nul_cons. split; [discriminate|exact IH].
Qed.
Lemma lines_of_line x s : ~ In x0a x -> forall cur, lines_of (x ++ x0a :: s) cur = (cur ++ x) :: lines_of s [].
Proof.
  induction x as [|c x IH]; intros N cur.
  - cbn [app lines_of]. rewrite beq_refl, app_nil_r. reflexivity.
  - cbn [app lines_of]. assert (B : beq c x0a = false). { apply beq_neq. intros ->. apply N. left. reflexivity. }
    rewrite B, IH by (intro I; apply N; right; exact I). now rewrite <- app_assoc.
Qed.
Lemma lines_of_lines rs : Forall (fun x => ~ In x0a x) rs -> lines_of (lines rs) [] = rs.
Proof.
  induction 1 as [|x rs N F IH]; [reflexivity|]. rewrite lines_cons, lines_of_line by auto. cbn [app]. now rewrite IH.
Qed.
Lemma all_shown_app K a b a' b' : all_shown K a = Some a' -> all_shown K b = Some b' -> all_shown K (a ++ b) = Some (a' ++ b').
Proof.
  revert a'. induction a as [|x a IH]; intros a' E F; cbn [all_shown app] in *; [injection E as <-; exact F|].
  destruct (shown K x); [|discriminate E]. destruct (all_shown K a) eqn:E2; [|discriminate E]. injection E as <-.
  rewrite (IH _ eq_refl F). reflexivity.
Qed.
Lemma all_shown_held K rs : Forall (fun x => shown K x = Some x) rs -> all_shown K rs = Some rs.
Proof. induction 1 as [|x rs E F IH]; [reflexivity|]. cbn [all_shown]. now rewrite E, IH. Qed.
Lemma truncated_lines rs : truncate_partial_line (lines rs) = lines rs.
Proof.
  destruct rs as [|x r _] using rev_ind; [reflexivity|]. rewrite lines_app, lines_one, app_assoc. apply truncate_lines.
Qed.

(** The listing without the line feed at its end, each line with the one before it *)
Fixpoint body (rs : list bytes) : bytes := match rs with [] => [] | x :: r => x0a :: x ++ body r end.
Lemma lines_body rs : x0a :: lines rs = body rs ++ [x0a].
Proof.
  induction rs as [|x rs IH]; [reflexivity|]. rewrite lines_cons. cbn [body app]. f_equal. rewrite <- app_assoc. f_equal. exact IH.
Qed.
Lemma lines_chop x rs : x <> [] -> chop_newline (lines (x :: rs)) = x ++ body rs.
Proof.
  intro N. rewrite lines_cons, lines_body, app_assoc. apply chop_last. destruct x; [easy|discriminate].
Qed.
Lemma body_end rs : line_end (body rs).
Proof. destruct rs; [left; reflexivity|right; eexists; reflexivity]. Qed.

(** ** The loop *)
Section Loop.
Variable now : Z.
Notation loop := (check_loop now).

Lemma loop_quiet u : forall v before st, quiet u v -> loop 0 before (u ++ v) st = loop 0 (rev u ++ before) v st.
Proof.
  induction u as [|x u IH]; intros v before st Q; [reflexivity|].
  cbn [app check_loop]. destruct (is_prefix EXPIRE_COMMENT_PREFIX (x :: u ++ v)) eqn:P.
  - exfalso. apply is_prefix_app in P. destruct P as [b E]. specialize (Q [] b). cbn [app] in Q.
    specialize (Q E). rewrite zlen_nil, zlen_cons in Q. pose proof (zlen_nonneg u). lia.
  - rewrite IH. { cbn [rev]. now rewrite <- app_assoc. }
    intros a b E. specialize (Q (x :: a) b). cbn [app] in Q. rewrite E in Q. specialize (Q eq_refl).
    rewrite !zlen_cons in Q. lia.
Qed.
Lemma loop_skip u : forall v before st, loop (List.length u) before (u ++ v) st = loop 0 (rev u ++ before) v st.
Proof.
  induction u as [|x u IH]; intros v before st; [reflexivity|].
  cbn [List.length app check_loop]. rewrite IH. cbn [rev]. now rewrite <- app_assoc.
Qed.
Lemma loop_mark s before st :
  loop 0 before (mark ++ s) st =
  bind (check_one now before s st)
       (fun p => let '(go, st) := p in if go then loop 0 (rev mark ++ before) s st else Ok st).
Proof.
  change (mark ++ s) with ("_"%byte :: ($ "exp_" ++ s)). cbn [check_loop].
  replace (is_prefix EXPIRE_COMMENT_PREFIX ("_"%byte :: $ "exp_" ++ s)) with true.
  2:{ symmetry. apply is_prefix_app. exists s. reflexivity. }
  change (skipn 5 ("_"%byte :: $ "exp_" ++ s)) with s.
  destruct (check_one now before s st) as [[[] st']|]; cbn [bind]; try reflexivity.
Qed.

(** The start of a text or of a line *)
Definition fresh_line (before : bytes) : Prop := before = [] \/ exists b, before = x0a :: b.
Lemma line_start_app u v : ~ In x0a u -> line_end v -> line_start (u ++ v) = u.
Proof.
  intros N [->|(w & ->)]; unfold line_start.
  - rewrite app_nil_r. apply index_of_None in N. now rewrite N.
  - rewrite index_of_app by auto. rewrite firstn_app, firstn_all, Nat.sub_diag. cbn [firstn]. apply app_nil_r.
Qed.

(** What one rule does to the local variables *)
Lemma line_step x e v before cp del mn act :
  own x -> until x e -> line_end v -> fresh_line before -> zlen cp + zlen x < 4096 ->
  loop 0 before (x ++ v) (mkCk cp del mn act) =
  loop 0 (rev x ++ before) v
    (if e <=? now then mkCk cp true mn (less act)
     else mkCk (cp ++ x ++ [x0a]) del (if negb (mn =? 0) && (mn <? e) then mn else e) act).
Proof.
  intros (_ & (r & PS) & NL & NN) U LE FR ROOM. pose proof U as (pre & ds & post & SX & SU & (DN & DA & DV & DH) & DL).
  assert (UQ : forall a b, pre ++ mark ++ (ds ++ [""""%byte] ++ post) = a ++ mark ++ b -> a = pre) by (intros a b Q; apply (SU a b); rewrite SX; exact Q).
  rewrite SX at 1.
  replace ((pre ++ mark ++ ds ++ [""""%byte] ++ post) ++ v)
    with (pre ++ mark ++ (ds ++ [""""%byte] ++ post) ++ v) by (now rewrite <- !app_assoc).
  rewrite loop_quiet by (now apply quiet_before). rewrite loop_mark.
  assert (REST : forall st, loop 0 (rev mark ++ rev pre ++ before) ((ds ++ [""""%byte] ++ post) ++ v) st = loop 0 (rev x ++ before) v st).
  { intro st. rewrite loop_quiet by (eapply quiet_after; eauto). f_equal. rewrite SX, !rev_app_distr, <- !app_assoc. reflexivity. }
  assert (S2 : (ds ++ [""""%byte] ++ post) ++ v = ds ++ """"%byte :: (post ++ v)) by (now rewrite <- !app_assoc).
  rewrite S2 in *. unfold check_one.
  rewrite exp_text_digits by auto.
  assert (ID : is_digits ds = true) by (now apply all_digits_forallb). rewrite ID. cbn [negb].
  rewrite digits_val_decimal by auto. rewrite DV.
  destruct (Z.leb_spec e now) as [Q|Q]; [cbn [bind c_copy c_del c_min c_act]; apply REST|].
  assert (LS : rev (line_start (rev pre ++ before)) = pre).
  { rewrite line_start_app; [apply rev_involutive| |exact FR]. intro I. apply in_rev in I. apply NL. rewrite SX. apply in_app_iff. now left. }
  rewrite LS.
  assert (RX : pre ++ EXPIRE_COMMENT_PREFIX ++ ds ++ """"%byte :: (post ++ v) = x ++ v) by (rewrite SX, <- !app_assoc; reflexivity).
  rewrite RX. rewrite line_start_app by auto.
  assert (Z4 : zlen (x ++ v) <=? 4 = false).
  { apply Z.leb_gt. rewrite SX, !zlen_app. rewrite DL. change (zlen mark) with 5. pose proof (zlen_nonneg pre). pose proof (zlen_nonneg v). pose proof (zlen_nonneg post). change (zlen [""""%byte]) with 1. lia. }
  rewrite Z4. assert (PP : is_prefix ($ "pass") (x ++ v) = true). { apply is_prefix_app. exists (r ++ v). rewrite PS at 1. now rewrite <- app_assoc. }
  rewrite PP. cbn [negb orb c_copy c_del c_min c_act].
  rewrite ztake_all by (unfold STANDARD_CMD_OUT_BUFSIZE; lia).
  destruct (Z.geb_spec (zlen (cp ++ x)) STANDARD_CMD_OUT_BUFSIZE) as [G|_]; [rewrite zlen_app in G; unfold STANDARD_CMD_OUT_BUFSIZE in G; lia|].
  cbn [bind]. rewrite <- app_assoc. apply REST.
Qed.

(** The whole listing *)
Lemma first_end_app done x e mn : first_end done mn -> until x e -> 0 < e ->
  first_end (done ++ [x]) (if negb (mn =? 0) && (mn <? e) then mn else e).
Proof.
  intros [(-> & ->)|((y & I & Y) & M)] U P.
  - cbn [Z.eqb negb andb app]. right. split; [exists x; split; [left; reflexivity|exact U]|].
    intros z f [<-|[]] F. rewrite (until_fun _ _ _ U F). lia.
  - pose proof (until_pos _ _ Y). right.
    assert (B : mn =? 0 = false) by (apply Z.eqb_neq; lia). rewrite B. cbn [negb andb].
    destruct (Z.ltb_spec mn e); split.
    + exists y. split; [apply in_app_iff; now left|exact Y].
    + intros z f IZ F. apply in_app_iff in IZ as [IZ|[<-|[]]]; [now apply (M z)|]. rewrite <- (until_fun _ _ _ U F). lia.
    + exists x. split; [apply in_app_iff; right; left; reflexivity|exact U].
    + intros z f IZ F. apply in_app_iff in IZ as [IZ|[<-|[]]]; [specialize (M z f IZ F); lia|]. rewrite <- (until_fun _ _ _ U F). lia.
Qed.

Lemma without_len {A} (P : A -> Prop) l l' : without P l l' -> zlen l' <= zlen l.
Proof. induction 1; rewrite ?zlen_cons; lia. Qed.
Lemma loop_lines rs : forall before done del mn act t,
  Forall own rs -> zlen (lines done) + zlen (lines rs) <= 4096 -> first_end done mn ->
  t = body rs \/ (exists x r, rs = x :: r /\ t = x ++ body r /\ fresh_line before) ->
  exists kept mn' act', without (lapsed now) rs kept /\ first_end (done ++ kept) mn' /\
    loop 0 before t (mkCk (lines done) del mn act) =
    Ok (mkCk (lines (done ++ kept)) (del || (zlen kept <? zlen rs)) mn' act') /\
    (zlen rs <= act -> act' = act - (zlen rs - zlen kept)).
Proof.
  induction rs as [|x rs IH]; intros before done del mn act t O ROOM M T.
  - exists [], mn, act. rewrite app_nil_r. split; [constructor|]. split; [exact M|].
    assert (t = []) as ->. { destruct T as [->|(x & r & Q & _)]; [reflexivity|discriminate Q]. }
    cbn [check_loop]. change (zlen (@nil bytes)) with 0. cbn [Z.ltb]. rewrite orb_false_r, Z.sub_diag, Z.sub_0_r. split; reflexivity.
  - inversion O as [|? ? O1 O2]; subst. pose proof O1 as ((e & U) & _ & NL & _). pose proof (until_pos _ _ U) as EP.
    rewrite lines_cons, zlen_app, zlen_cons in ROOM. pose proof (zlen_nonneg (lines rs)). pose proof (zlen_nonneg rs). pose proof (zlen_nonneg x).
    assert (GO : exists before', fresh_line before' /\ forall st, loop 0 before t st = loop 0 before' (x ++ body rs) st).
    { destruct T as [->|(x' & r' & Q & -> & F')].
      - exists (x0a :: before). split; [right; eexists; reflexivity|]. intro st. cbn [body].
        change (x0a :: x ++ body rs) with ([x0a] ++ (x ++ body rs)). rewrite loop_quiet; [reflexivity|].
        apply quiet_cons; [discriminate|apply quiet_nil].
      - injection Q as <- <-. exists before. split; [exact F'|reflexivity]. }
    destruct GO as (b' & FB & GO). rewrite GO.
    rewrite (line_step x e) by (auto using body_end; lia).
    destruct (Z.leb_spec e now) as [Q|Q].
    + destruct (IH (rev x ++ b') done true mn (less act) (body rs)) as (kept & mn' & act' & W & F & E & AC); auto; try lia.
      exists kept, mn', act'. split; [apply without_drop; [exists e; auto|exact W]|]. split; [exact F|]. rewrite E.
      pose proof (without_len _ _ _ W) as LK. rewrite zlen_cons.
      split. 2:{ intro Q1. assert (LA : less act = act - 1) by (unfold less; destruct (Z.gtb_spec act 0); lia). rewrite LA in AC. lia. }
      do 2 f_equal.
      destruct (Z.ltb_spec (zlen kept) (1 + zlen rs)); [|lia]. now rewrite orb_true_r.
    + assert (D1 : lines done ++ x ++ [x0a] = lines (done ++ [x])) by (now rewrite lines_app, lines_one). rewrite D1.
      destruct (IH (rev x ++ b') (done ++ [x]) del (if negb (mn =? 0) && (mn <? e) then mn else e) act (body rs)) as (kept & mn' & act' & W & F & E & AC); auto; try lia.
      { rewrite lines_app, lines_one, !zlen_app. change (zlen [x0a]) with 1. lia. }
      { now apply first_end_app. }
      rewrite <- app_assoc in F, E. cbn [app] in F, E. exists (x :: kept), mn', act'.
      split; [apply without_keep; [|exact W]|]. { intros (f & UF & LF). rewrite (until_fun _ _ _ U UF) in Q. lia. }
      split; [exact F|]. rewrite E, !zlen_cons. split; [|lia]. do 3 f_equal.
      destruct (Z.ltb_spec (zlen kept) (zlen rs)), (Z.ltb_spec (1 + zlen kept) (1 + zlen rs)); auto; lia.
Qed.
End Loop.
