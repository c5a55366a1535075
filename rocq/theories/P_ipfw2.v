(** Proofs about the ipfw back end: checks. *)
From Verif Require Import Bytes M_util M_message M_codec M_access M_cycle M_incoming M_packet M_fw M_extcmd M_pf
  S_text S_access S_incoming S_fw S_pf P_bytes P_util P_util2 P_access P_fw P_fw2 P_fw3 P_fw5 P_fw9 P_fwinit3 P_incoming3 P_incoming5 P_pf P_pf2 M_ipfw S_ipfw P_ipfw.
From Coq Require Import Init.Byte List ZArith Bool Lia Permutation.
Import ListNotations.
Open Scope Z_scope.

(** ** Times *)
Lemma until_fun x e e' : until x e -> until x e' -> e = e'.
Proof.
  intros (p & ds & E & U & (_ & A & V & _) & _) (p' & ds' & E' & U' & (_ & A' & V' & _) & _).
  assert (p' = p) by (apply (U p' ds'); exact E'). subst p'.
  rewrite E in E'. apply app_inv_head in E'. apply app_inv_head in E'. congruence.
Qed.
Lemma until_pos x e : until x e -> 0 < e.
Proof.
  intros (p & ds & _ & _ & N & L). destruct (Z_lt_le_dec 0 e); auto. exfalso.
  assert (0 <= e) by (destruct N as (_ & A & <- & _); apply decimal_bound; exact A).
  pose proof (numeral_zlen e ds 1 N ltac:(change (10 ^ 1) with 10; lia) ltac:(lia)). lia.
Qed.
Lemma ends_fun K r e e' : ends_at K r e -> ends_at K r e' -> e = e'.
Proof. intros (A & _) (B & _). exact (until_fun _ _ _ A B). Qed.

Lemma exp_text_last ds : all_digits ds -> zlen ds = 10 -> exp_text ds = ds.
Proof. intros A L. unfold exp_text. rewrite ztake_all by lia. now apply chop_spaces_digits. Qed.
Lemma exp_text_inner ds v : all_digits ds -> zlen ds = 10 -> is_digits (exp_text (ds ++ x0a :: v)) = false.
Proof.
  intros A L. unfold exp_text.
  assert (T : ztake 11 (ds ++ x0a :: v) = ds ++ [x0a]).
  { unfold ztake. rewrite firstn_app. rewrite firstn_all2 by (unfold zlen in L; lia). f_equal.
    replace (Z.to_nat 11 - List.length ds)%nat with 1%nat by (unfold zlen in L; lia). reflexivity. }
  rewrite T. assert (C : chop_spaces (ds ++ [x0a]) = ds ++ [x0a]).
  { unfold chop_spaces. rewrite rev_app_distr. cbn [rev app]. destruct (rev ds) eqn:R.
    - exfalso. assert (ds = []) by (rewrite <- (rev_involutive ds), R; reflexivity). subst ds. discriminate L.
    - cbn [chop_spaces_rev]. change (beq x0a " "%byte) with false. cbn iota. rewrite <- R.
      change (x0a :: rev ds) with ([x0a] ++ rev ds). rewrite rev_app_distr, rev_involutive. reflexivity. }
  rewrite C. unfold is_digits. rewrite forallb_app. cbn [forallb]. change (isdigit x0a) with false. now rewrite andb_false_r.
Qed.

(** ** Lines of a listing *)
Lemma mark_shift u x a b : Forall (fun c => c <> "_"%byte) u -> u ++ x = a ++ mark ++ b -> exists a', a = u ++ a' /\ x = a' ++ mark ++ b.
Proof.
  revert a. induction u as [|c u IH]; intros a F E; [exists a; auto|]. inversion F as [|? ? N F']; subst. destruct a as [|c' a].
  - cbn in E. injection E as E _. easy.
  - cbn [app] in E. injection E as <- E. destruct (IH a F' E) as (a' & -> & X). exists a'. auto.
Qed.
Section Lines.
Variable K : ipfw.
Hypothesis NK : number_ok K.
Lemma number_chars n : 0 <= n <= 65535 -> forall c, ~ digit c -> ~ In c (number K n).
Proof. intros R c D. destruct (NK n R) as (_ & A & _). now apply digits_no_star. Qed.
Lemma line_of r e : 0 <= r_num r <= 65535 -> ends_at K r e -> until (rule_line K r) e /\ one_line (rule_line K r).
Proof.
  intros R ((pre & ds & E & U & N & L) & (N1 & N2)). split.
  - exists (number K (r_num r) ++ [" "%byte] ++ pre), ds. unfold rule_line. split; [now rewrite E, <- !app_assoc|]. split; [|split; assumption].
    intros a b Q. rewrite app_assoc in Q. apply mark_shift in Q as (a' & -> & Q).
    + rewrite (U _ _ Q), <- app_assoc. reflexivity.
    + apply Forall_app. split.
      * apply Forall_forall. intros c I ->. revert I. apply number_chars; [exact R|]. unfold digit. vm_compute. intuition.
      * constructor; [discriminate|constructor].
  - unfold rule_line. split; rewrite !in_app_iff; intros [I|[[I|[]]|I]]; try discriminate I; try contradiction; revert I; apply number_chars; auto; unfold digit; vm_compute; intuition.
Qed.
Lemma line_not_nil r : rule_line K r <> [].
Proof. unfold rule_line. destruct (number K (r_num r)); discriminate. Qed.
End Lines.

(** ** The loop *)
Section Loop.
Variable now : Z.
Notation loop := (check_loop now).
Lemma loop_quiet u : forall v before mn, quiet u v -> loop 0 before (u ++ v) mn = loop 0 (rev u ++ before) v mn.
Proof.
  induction u as [|x u IH]; intros v before st Q; [reflexivity|].
  cbn [app check_loop]. destruct (is_prefix EXPIRE_COMMENT_PREFIX (x :: u ++ v)) eqn:P.
  - exfalso. apply is_prefix_app in P. destruct P as [b E]. specialize (Q [] b). cbn [app] in Q.
    specialize (Q E). rewrite zlen_nil, zlen_cons in Q. pose proof (zlen_nonneg u). lia.
  - rewrite IH. { cbn [rev]. now rewrite <- app_assoc. }
    intros a b E. specialize (Q (x :: a) b). cbn [app] in Q. rewrite E in Q. specialize (Q eq_refl).
    rewrite !zlen_cons in Q. lia.
Qed.
Lemma loop_mark s before mn :
  loop 0 before (mark ++ s) mn =
  bind (check_one now before s mn) (fun p => let '(o, mn) := p in match o with Some x => Ok x | None => loop 0 (rev mark ++ before) s mn end).
Proof.
  change (mark ++ s) with ("_"%byte :: ($ "exp_" ++ s)). cbn [check_loop].
  replace (is_prefix EXPIRE_COMMENT_PREFIX ("_"%byte :: $ "exp_" ++ s)) with true.
  2:{ symmetry. apply is_prefix_app. exists s. reflexivity. }
  change (skipn 5 ("_"%byte :: $ "exp_" ++ s)) with s.
  destruct (check_one now before s mn) as [[[] st']|]; cbn [bind]; reflexivity.
Qed.
(** A line that is not the last one is passed over *)
Lemma loop_inner x e v before mn : until x e -> loop 0 before (x ++ x0a :: v) mn = loop 0 (rev x ++ before) (x0a :: v) mn.
Proof.
  intros (pre & ds & SX & SU & (DN & DA & DV & DH) & DL).
  assert (UQ : forall a b, pre ++ mark ++ ds = a ++ mark ++ b -> a = pre) by (intros a b Q; apply (SU a b); rewrite SX; exact Q).
  assert (LE : line_end (x0a :: v)) by (right; eexists; reflexivity).
  rewrite SX at 1. replace ((pre ++ mark ++ ds) ++ x0a :: v) with (pre ++ mark ++ ds ++ x0a :: v) by (now rewrite <- !app_assoc).
  rewrite loop_quiet by (now apply quiet_before). rewrite loop_mark. unfold check_one. rewrite exp_text_inner by auto. cbn [negb bind].
  rewrite loop_quiet by (eapply quiet_after; eauto). f_equal. rewrite SX, !rev_app_distr, <- !app_assoc. reflexivity.
Qed.
(** The last line *)
Lemma loop_last K r e before mn : number_ok K -> 0 <= r_num r <= 65535 -> ends_at K r e -> fresh_line before ->
  loop 0 before (rule_line K r) mn = Ok (if e <=? now then Due (r_num r) mn else Through (if mn <? e then mn else e)).
Proof.
  intros NK R EA FR. destruct (line_of K NK r e R EA) as ((pre & ds & SX & SU & (DN & DA & DV & DH) & DL) & (NL & _)).
  set (x := rule_line K r) in *.
  assert (UQ : forall a b, pre ++ mark ++ ds = a ++ mark ++ b -> a = pre) by (intros a b Q; apply (SU a b); rewrite SX; exact Q).
  rewrite SX at 1. replace (pre ++ mark ++ ds) with (pre ++ mark ++ ds ++ []) at 1 by (now rewrite app_nil_r).
  rewrite loop_quiet by (apply quiet_before; [left; reflexivity|exact UQ]). rewrite loop_mark, app_nil_r. unfold check_one.
  rewrite exp_text_last by auto.
  assert (ID : is_digits ds = true) by (now apply all_digits_forallb). rewrite ID. cbn [negb]. rewrite digits_val_decimal by auto. rewrite DV.
  destruct (Z.leb_spec e now) as [Q|Q].
  - assert (LS : rev (line_start (rev pre ++ before)) = pre).
    { rewrite line_start_app; [apply rev_involutive| |exact FR]. intro I. apply in_rev in I. apply NL. rewrite SX. apply in_app_iff. now left. }
    rewrite LS. change EXPIRE_COMMENT_PREFIX with mark. rewrite <- SX. unfold x, rule_line.
    destruct (NK (r_num r) R) as (N0 & NA & NV & NN). cbn [app]. rewrite index_of_app.
    2:{ apply digits_no_star; [exact NA|]. unfold digit. vm_compute. intuition. }
    destruct (Z.gtb_spec (Z.of_nat (List.length (number K (r_num r))) + 1) 6) as [B|_]; [unfold zlen in NN; lia|].
    rewrite firstn_app, firstn_all, Nat.sub_diag. cbn [firstn]. rewrite app_nil_r.
    rewrite strtol_wrapper_digits; [|exact NA|rewrite NV; lia|lia|rewrite NV; lia]. cbn [bind]. rewrite NV. unfold u16. now rewrite Z.mod_small by lia.
  - cbn [bind]. replace ds with (ds ++ []) by apply app_nil_r. rewrite loop_quiet by (eapply quiet_after; [left; reflexivity|exact UQ]). reflexivity.
Qed.
Lemma loop_lines K rs : number_ok K -> forall before r e mn t,
  Forall (fun x => 0 <= r_num x <= 65535 /\ exists f, ends_at K x f) rs -> 0 <= r_num r <= 65535 -> ends_at K r e ->
  t = body (map (rule_line K) (rs ++ [r])) \/ (exists x l, rs ++ [r] = x :: l /\ t = rule_line K x ++ body (map (rule_line K) l) /\ fresh_line before) ->
  loop 0 before t mn = Ok (if e <=? now then Due (r_num r) mn else Through (if mn <? e then mn else e)).
Proof.
  intro NK. induction rs as [|x rs IH]; intros before r e mn t F R EA T.
  - cbn [app] in T. assert (GO : exists before', fresh_line before' /\ forall mn, loop 0 before t mn = loop 0 before' (rule_line K r) mn).
    { destruct T as [->|(x & l & Q & -> & FL)].
      - exists (x0a :: before). split; [right; eexists; reflexivity|]. intro m. cbn [map body]. rewrite app_nil_r.
        change (x0a :: rule_line K r) with ([x0a] ++ rule_line K r). rewrite loop_quiet; [reflexivity|]. apply quiet_cons; [discriminate|apply quiet_nil].
      - injection Q as <- <-. exists before. split; [exact FL|]. intro m. cbn [map body]. now rewrite app_nil_r. }
    destruct GO as (b' & FB & GO). rewrite GO. now apply loop_last.
  - pose proof (Forall_inv F) as (RX & f & EX). pose proof (Forall_inv_tail F) as F'.
    assert (GO : exists before', forall mn, loop 0 before t mn = loop 0 before' (rule_line K x ++ body (map (rule_line K) (rs ++ [r]))) mn).
    { destruct T as [->|(x' & l & Q & -> & FL)].
      - exists (x0a :: before). intro m. cbn [map body app]. match goal with |- loop 0 before (x0a :: ?y) m = _ => change (x0a :: y) with ([x0a] ++ y) end.
        rewrite loop_quiet; [reflexivity|]. apply quiet_cons; [discriminate|apply quiet_nil].
      - cbn [app] in Q. injection Q as <- <-. exists before. reflexivity. }
    destruct GO as (b' & GO). rewrite GO. clear GO T.
    assert (B : exists v, body (map (rule_line K) (rs ++ [r])) = x0a :: v) by (destruct rs; cbn [app map body]; eexists; reflexivity).
    destruct B as (v & B). rewrite B, (loop_inner _ f); [|now apply (line_of K NK)]. rewrite <- B.
    apply IH; auto.
Qed.
End Loop.
