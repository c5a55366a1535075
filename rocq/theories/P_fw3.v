(** Proofs about the removal of expired rules: the loop over the listing. *)
From Verif Require Import Bytes M_util M_message M_codec M_access M_cycle M_incoming M_packet M_fw
  S_text S_fw P_bytes P_util P_util2 P_fw P_fw2.
From Coq Require Import Init.Byte List ZArith Bool Lia.
Import ListNotations.
Open Scope Z_scope.

Section Loop.
Variable W : Type.
Variable exec : W -> list bytes -> W * ended * bytes.
Variable cf : fwconf.
Variable c : chain.
Variable now : Z.
Notation loop := (expire_loop W exec cf c now).

(** No mark begins in [u] *)
Definition quiet (u v : bytes) : Prop := forall a b, u ++ v = a ++ mark ++ b -> zlen u <= zlen a.

Lemma loop_quiet u : forall v before st, quiet u v -> loop 0 before (u ++ v) st = loop 0 (rev u ++ before) v st.
Proof.
  induction u as [|x u IH]; intros v before st Q; [reflexivity|].
  cbn [app expire_loop]. destruct (is_prefix EXPIRE_COMMENT_PREFIX (x :: u ++ v)) eqn:P.
  - exfalso. apply is_prefix_app in P. destruct P as [b E]. specialize (Q [] b). cbn [app] in Q.
    specialize (Q E). rewrite zlen_nil, zlen_cons in Q. pose proof (zlen_nonneg u). lia.
  - rewrite IH. { cbn [rev]. now rewrite <- app_assoc. }
    intros a b E. specialize (Q (x :: a) b). cbn [app] in Q. rewrite E in Q. specialize (Q eq_refl).
    rewrite !zlen_cons in Q. lia.
Qed.
Lemma loop_skip u : forall v before st, loop (List.length u) before (u ++ v) st = loop 0 (rev u ++ before) v st.
Proof.
  induction u as [|x u IH]; intros v before st; [reflexivity|].
  cbn [List.length app expire_loop]. rewrite IH. cbn [rev]. now rewrite <- app_assoc.
Qed.
Lemma loop_mark s before st :
  loop 0 before (mark ++ s) st =
  bind (expire_one W exec cf c now before s st)
       (fun p => let '(go, st) := p in if go then loop 0 (rev mark ++ before) s st else Ok st).
Proof.
  change (mark ++ s) with ("_"%byte :: ($ "exp_" ++ s)). cbn [expire_loop].
  replace (is_prefix EXPIRE_COMMENT_PREFIX ("_"%byte :: $ "exp_" ++ s)) with true.
  2:{ symmetry. apply is_prefix_app. exists s. reflexivity. }
  change (skipn 5 ("_"%byte :: $ "exp_" ++ s)) with s.
  destruct (expire_one W exec cf c now before s st) as [[[] st']|]; cbn [bind]; try reflexivity.
Qed.
End Loop.

(** ** Where marks can be *)
Lemma app_split {A} (a b c d : list A) : a ++ b = c ++ d ->
  (exists e, a = c ++ e /\ d = e ++ b) \/ (exists e, c = a ++ e /\ b = e ++ d /\ e <> []).
Proof.
  revert c. induction a as [|x a IH]; intros c E.
  - cbn in E. destruct c as [|y c]; [left; exists []; auto|right; exists (y :: c); repeat split; auto; discriminate].
  - destruct c as [|y c]; [left; exists (x :: a); auto|]. cbn in E. injection E as -> E.
    destruct (IH _ E) as [(e & -> & ->)|(e & -> & -> & N)]; [left; exists e; auto|right; exists e; auto].
Qed.
Lemma quiet_nil v : quiet [] v. Proof. intros a b _. rewrite zlen_nil. apply zlen_nonneg. Qed.
Lemma quiet_cons x u v : x <> "_"%byte -> quiet u v -> quiet (x :: u) v.
Proof.
  intros N Q a b E. destruct a as [|y a].
  - cbn in E. injection E as E _. easy.
  - cbn [app] in E. injection E as -> E. specialize (Q a b E). rewrite !zlen_cons. lia.
Qed.
Lemma quiet_app u1 u2 v : Forall (fun x => x <> "_"%byte) u1 -> quiet u2 v -> quiet (u1 ++ u2) v.
Proof. induction u1 as [|x u1 IH]; intros F Q; [exact Q|]. inversion F; subst. apply quiet_cons; auto. Qed.
(** A text followed by nothing or by a line feed *)
Definition line_end (v : bytes) : Prop := v = [] \/ exists w, v = x0a :: w.
Lemma mark_in_line u v a b : line_end v -> u ++ v = a ++ mark ++ b ->
  (exists b', u = a ++ mark ++ b' /\ b = b' ++ v) \/ zlen u <= zlen a.
Proof.
  intros L E. destruct (app_split _ _ _ _ E) as [(e & -> & E2)|(e & -> & _)].
  2:{ right. rewrite zlen_app. pose proof (zlen_nonneg e). lia. }
  destruct (app_split _ _ _ _ E2) as [(f & M & ->)|(f & -> & -> & N)].
  - destruct f as [|x f].
    + rewrite app_nil_r in M. subst e. left. exists []. now rewrite app_nil_r.
    + exfalso.
      destruct L as [L|(w & L)].
      * discriminate L.
      * injection L as -> _. assert (I : In x0a mark) by (rewrite M; apply in_app_iff; right; left; reflexivity).
        cbn in I. intuition discriminate.
  - left. exists f. auto.
Qed.
Lemma quiet_unmarked u v : unmarked u -> line_end v -> quiet u v.
Proof. intros U L a b E. destruct (mark_in_line _ _ _ _ L E) as [(b' & Q & _)|]; auto. destruct (U _ _ Q). Qed.
Lemma quiet_before pre rest v :
  line_end v -> (forall a b, pre ++ mark ++ rest = a ++ mark ++ b -> a = pre) -> quiet pre (mark ++ rest ++ v).
Proof.
  intros L U a b E. replace (pre ++ mark ++ rest ++ v) with ((pre ++ mark ++ rest) ++ v) in E by (now rewrite <- !app_assoc).
  destruct (mark_in_line _ _ _ _ L E) as [(b' & Q & _)|G].
  - rewrite (U _ _ Q). lia.
  - rewrite zlen_app in G. pose proof (zlen_nonneg (mark ++ rest)). lia.
Qed.
Lemma quiet_after pre rest v :
  line_end v -> (forall a b, pre ++ mark ++ rest = a ++ mark ++ b -> a = pre) -> quiet rest v.
Proof.
  intros L U a b E. destruct (mark_in_line _ _ _ _ L E) as [(b' & Q & _)|G]; auto. exfalso.
  subst rest. specialize (U (pre ++ mark ++ a) b'). rewrite <- !app_assoc in U. specialize (U eq_refl).
  apply (f_equal zlen) in U. rewrite !zlen_app in U. change (zlen mark) with 5 in U. pose proof (zlen_nonneg a). lia.
Qed.

(** ** The expiry text *)
Lemma chop_spaces_digits s : all_digits s -> chop_spaces s = s.
Proof.
  intro A. unfold chop_spaces. destruct (rev s) as [|x r] eqn:E.
  - rewrite <- (rev_involutive s), E. reflexivity.
  - assert (D : digit x). { assert (I : In x s) by (apply in_rev; rewrite E; left; reflexivity). unfold all_digits in A. rewrite Forall_forall in A. auto. }
    assert (N : beq x " "%byte = false). { apply beq_neq. intros ->. unfold digit in D. change (bv " "%byte) with 32 in D. lia. }
    cbn [chop_spaces_rev]. rewrite N. destruct r; rewrite <- E; apply rev_involutive.
Qed.
Lemma chop_spaces_one s : all_digits s -> s <> [] -> chop_spaces (s ++ [" "%byte]) = s.
Proof.
  intros A N. pose proof (chop_spaces_digits s A) as H. unfold chop_spaces in *. rewrite rev_app_distr. cbn [rev app].
  destruct (rev s) as [|x r] eqn:E.
  - exfalso. apply N. rewrite <- (rev_involutive s), E. reflexivity.
  - cbn [chop_spaces_rev]. change (beq " "%byte " "%byte) with true. cbn iota. exact H.
Qed.
Lemma digits_no_star s c : all_digits s -> ~ digit c -> ~ In c s.
Proof. intros A N I. unfold all_digits in A. rewrite Forall_forall in A. auto. Qed.
Lemma exp_str_digits ds post : ds <> [] -> all_digits ds -> zlen ds <= 11 -> exp_str (ds ++ $ " */" ++ post) = ds.
Proof.
  intros N A L. unfold exp_str.
  assert (NS : ~ In "*"%byte ds) by (apply digits_no_star; auto; unfold digit; change (bv "*"%byte) with 42; lia).
  assert (C : zlen ds <= 9 \/ zlen ds = 10 \/ zlen ds = 11) by lia. destruct C as [C|[C|C]].
  - assert (exists u, ztake 11 (ds ++ $ " */" ++ post) = (ds ++ [" "%byte]) ++ "*"%byte :: u) as [u ->].
    { exists (ztake (9 - zlen ds) ("/"%byte :: post)).
      change ($ " */" ++ post) with (" "%byte :: "*"%byte :: "/"%byte :: post). unfold ztake.
      rewrite firstn_app. rewrite firstn_all2 by (unfold zlen in C; lia). rewrite <- app_assoc. f_equal.
      replace (Z.to_nat 11 - List.length ds)%nat with (S (S (Z.to_nat (9 - zlen ds)))) by (unfold zlen in *; lia). reflexivity. }
    rewrite index_of_app. 2:{ rewrite in_app_iff. cbn. intuition discriminate. }
    rewrite firstn_app, firstn_all, Nat.sub_diag. cbn [firstn]. rewrite app_nil_r. now apply chop_spaces_one.
  - assert (ztake 11 (ds ++ $ " */" ++ post) = ds ++ [" "%byte]) as ->.
    { unfold ztake. rewrite firstn_app, firstn_all2 by (unfold zlen in C; lia). f_equal.
      replace (Z.to_nat 11 - List.length ds)%nat with 1%nat by (unfold zlen in *; lia). reflexivity. }
    replace (index_of "*"%byte (ds ++ [" "%byte])) with (@None nat). 2:{ symmetry. apply index_of_None. rewrite in_app_iff. cbn. intuition discriminate. }
    now apply chop_spaces_one.
  - rewrite ztake_app by lia. replace (index_of "*"%byte ds) with (@None nat). 2:{ symmetry. now apply index_of_None. }
    now apply chop_spaces_digits.
Qed.
