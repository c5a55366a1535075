(** Proofs about the reading of access.conf: the lines of a file and its stanzas. *)
From Verif Require Import Bytes M_base64 M_util M_message M_codec M_access M_replay M_cycle M_incoming M_conf M_accfile
  S_text S_base64 S_conf S_accfile P_bytes P_base64 P_util P_util2 P_access P_replay P_conf P_accfile P_accfile2 P_accfile3.
From Coq Require Import Init.Byte List ZArith Bool Lia.
Import ListNotations.
Open Scope Z_scope.

Local Ltac ands := repeat match goal with |- _ /\ _ => split end.

(** ** Lines *)
Lemma access_line_nl y rec l lo s : access_line y rec (l ++ [x0a]) lo s = access_line y rec l lo s.
Proof.
  unfold access_line. rewrite scan_line_nl. destruct l as [|c l]; reflexivity.
Qed.

Lemma file_lines_run y rec lines : Forall line_ok lines -> forall fuel lo s, (length (file lines) <= fuel)%nat ->
  access_lines y rec (lines_of fuel (file lines)) lo s = access_lines y rec lines lo s.
Proof.
  assert (ZL : forall w : bytes, zlen w <= 1022 -> (length w < Z.to_nat (MAX_LINE_LEN - 1))%nat)
    by (intros w; unfold zlen, MAX_LINE_LEN; lia).
  induction 1 as [|l lines (NL & N0 & LE) _ IH]; intros fuel lo s LF.
  - destruct fuel; reflexivity.
  - unfold file in *. destruct lines as [|l2 lines].
    + cbn [join] in *. destruct fuel as [|fuel].
      * destruct l; [|cbn in LF; lia]. reflexivity.
      * destruct l as [|c l]; [reflexivity|]. cbn [lines_of].
        rewrite fgets_all; [|auto|apply Nat.lt_le_incl, ZL; exact LE].
        rewrite cstr_id by auto. replace (lines_of fuel []) with (@nil bytes) by (destruct fuel; reflexivity). reflexivity.
    + change (join [x0a] (l :: l2 :: lines)) with (l ++ [x0a] ++ join [x0a] (l2 :: lines)) in *.
      assert (LB : (length (l ++ [x0a] ++ join [x0a] (l2 :: lines)) = length l + S (length (join [x0a] (l2 :: lines))))%nat)
        by (rewrite !app_length; reflexivity).
      destruct fuel as [|fuel]; [lia|].
      assert (NE : exists c t, l ++ [x0a] ++ join [x0a] (l2 :: lines) = c :: t) by (destruct l; eexists; eexists; reflexivity).
      destruct NE as (c & t & NE). cbn [lines_of]. rewrite NE. cbv iota. rewrite <- NE.
      cbn [app]. rewrite (fgets_line _ l (join [x0a] (l2 :: lines))).
      2: { apply Forall_forall. intros x I ->. auto. }
      2: { apply ZL; auto. }
      assert (CS : cstr (l ++ [x0a]) = l ++ [x0a]).
      { apply cstr_id. rewrite in_app_iff. intros [I|[I|[]]]; [auto|discriminate]. }
      rewrite CS. cbn [access_lines]. rewrite access_line_nl. destruct (access_line y rec l lo s) as [[lo1 s1]| | | |]; try reflexivity.
      cbn [rbind]. apply IH. lia.
Qed.

(** ** Entries *)
Lemma cut_colon_none s : ~ In ":"%byte s -> cut_colon s = s.
Proof.
  induction s as [|c s IH]; intros N; [reflexivity|]. cbn. destruct (beq_spec c ":"%byte) as [->|]; [exfalso; apply N; left; auto|].
  cbn. f_equal. apply IH. intros I; apply N; right; auto.
Qed.
Lemma cut_colon_named nm n : named nm n -> cut_colon nm = n.
Proof.
  intros [[-> N]|(x & -> & N)]; [apply cut_colon_none; auto|].
  induction n as [|c n IH]; cbn [app cut_colon].
  - rewrite beq_refl. destruct (memb ":"%byte x) eqn:M; [apply memb_In in M; contradiction|reflexivity].
  - destruct (memb ":"%byte (n ++ ":"%byte :: x)) eqn:M.
    + rewrite andb_false_r. f_equal. exact IH.
    + exfalso. assert (X : memb ":"%byte (n ++ ":"%byte :: x) = true) by (apply memb_In, in_app_iff; right; left; auto). congruence.
Qed.

Fixpoint entries_run (y : system) (rec : bytes -> state -> res state) (es : list (bytes * bytes)) (lo : local) (s : state) : res (local * state) :=
  match es with
  | [] => Done (lo, s)
  | (n, v) :: r => let* (lo, s) := access_entry y rec n v lo s in entries_run y rec r lo s
  end.
Lemma entries_run_app y rec a b : forall lo s,
  entries_run y rec (a ++ b) lo s = rbind (entries_run y rec a lo s) (fun p => entries_run y rec b (fst p) (snd p)).
Proof.
  induction a as [|[n v] a IH]; intros lo s; [reflexivity|]. cbn [app entries_run].
  destruct (access_entry y rec n v lo s) as [[lo1 s1]| | | |]; try reflexivity. cbn [rbind]. apply IH.
Qed.

Lemma access_line_says y rec l n v lo s : line_ok l -> says l n v -> access_line y rec l lo s = access_entry y rec n v lo s.
Proof.
  intros (_ & N0 & _) (nm & t & W & N & C). unfold access_line.
  assert (NC : ~ comment l) by apply W.
  rewrite (written_scan _ _ _ _ W), (cut_colon_named _ _ N), (chop_written _ _ _ _ W C).
  destruct (is_empty_line (hd x00 l)) eqn:E; [|reflexivity]. apply empty_line_comment in E; [contradiction|auto].
Qed.
Lemma access_line_comment y rec l lo s : line_ok l -> comment l -> access_line y rec l lo s = Done (lo, s).
Proof. intros (_ & N0 & _) C. apply empty_line_comment in C; auto. unfold access_line. now rewrite C. Qed.

Lemma lines_entries y rec lines es : entries lines es -> Forall line_ok lines -> forall lo s,
  access_lines y rec lines lo s = entries_run y rec es lo s.
Proof.
  induction 1 as [|l ls es C _ IH|l n v ls es C _ IH]; intros F lo s; [reflexivity| |]; inversion F; subst; cbn [access_lines].
  - rewrite access_line_comment by auto. cbn [rbind]. auto.
  - rewrite (access_line_says _ _ _ n v) by auto. cbn [entries_run].
    destruct (access_entry y rec n v lo s) as [[lo1 s1]| | | |]; try reflexivity. cbn [rbind]. auto.
Qed.

(** ** Stanzas *)
Lemma nth_mid (pre : list acc) a post d : nth (length pre) (pre ++ a :: post) d = a.
Proof. rewrite app_nth2, Nat.sub_diag by lia. reflexivity. Qed.
Lemma replace_mid {A} (pre : list A) a b post : replace (length pre) b (pre ++ a :: post) = pre ++ b :: post.
Proof. induction pre as [|x pre IH]; cbn; [reflexivity|]. now rewrite IH. Qed.

Lemma other_entry y rec n v pre a post u sd fw d pw : ~ In n ([$ "SOURCE"] ++ include_params) ->
  access_entry y rec n v (mkLocal (Some (length pre)) u sd) (mkState (pre ++ a :: post) fw d pw) =
  let* w := set_param params y n v (mkWork a pw u sd) in
  Done (mkLocal (Some (length pre)) (w_user w) (w_sudo w), mkState (pre ++ w_acc w :: post) fw d (w_pw w)).
Proof.
  intros N. unfold access_entry.
  assert (X : forall p, In p ([$ "SOURCE"] ++ include_params) -> bseq n p = false).
  { intros p I. destruct (bseq n p) eqn:E; [apply bseq_eq in E; subst; contradiction|reflexivity]. }
  rewrite (X ($ "%include")), (X ($ "%include_folder")), (X ($ "SOURCE")), (X ($ "%include_keys"))
    by (unfold include_params; cbn [In app]; tauto).
  cbn [lo_curr]. unfold work_of, get_acc. cbn [st_accs st_pw lo_user lo_sudo]. rewrite nth_mid.
  destruct (set_param params y n v _) as [w| | | |]; try reflexivity. cbn [rbind].
  unfold put_work. cbn [st_accs st_fw st_depth]. now rewrite replace_mid.
Qed.

Lemma block_entries y rec b : absent b ([$ "SOURCE"] ++ include_params) -> forall pre a post u sd fw d pw,
  entries_run y rec b (mkLocal (Some (length pre)) u sd) (mkState (pre ++ a :: post) fw d pw) =
  let* w := block_run y b (mkWork a pw u sd) in
  Done (mkLocal (Some (length pre)) (w_user w) (w_sudo w), mkState (pre ++ w_acc w :: post) fw d (w_pw w)).
Proof.
  induction b as [|[n v] b IH]; intros N pre a post u sd fw d pw; [reflexivity|]. cbn [entries_run block_run].
  rewrite other_entry by (apply (N n v); left; reflexivity).
  destruct (set_param params y n v _) as [[a1 pw1 u1 sd1]| | | |]; try reflexivity. cbn [rbind w_user w_sudo w_acc w_pw].
  apply IH. intros q x I. apply (N q x). right; exact I.
Qed.

Lemma validate_mid pre a post u sd fw d pw n : n = length pre ->
  validate n (mkLocal (Some n) u sd) (mkState (pre ++ a :: post) fw d pw) =
  match acc_data_is_valid pw u sd a with
  | Some (a', f) => Some (mkState (pre ++ a' :: post) (fw || f) d pw)
  | None => None
  end.
Proof.
  intros ->. unfold validate, get_acc. cbn [st_accs st_pw st_fw st_depth lo_user lo_sudo]. rewrite nth_mid.
  destruct (acc_data_is_valid pw u sd a) as [[a' f]|]; cbn [obind]; [|reflexivity]. now rewrite replace_mid.
Qed.

Definition checked (y : system) (src : bytes) (b : list (bytes * bytes)) (a : acc) : Prop :=
  exists w fw, raw y src b w /\ acc_data_is_valid (w_pw w) (w_user w) (w_sudo w) (w_acc w) = Some (a, fw) /\
    fw = isnull (strs a s_cycle_open).

Definition no_cycle (a : acc) : bool := isnull (strs a s_cycle_open).

Lemma blocks_run y rec d : forall bs src b pre u sd fw pw a lo' s' n s'',
  block_run y b (mkWork (set_s s_source (Some src) new_acc) pw u sd) = Done a ->
  Forall (fun b => absent (snd b) ([$ "SOURCE"] ++ include_params)) bs ->
  entries_run y rec (flatten bs) (mkLocal (Some (length pre)) (w_user a) (w_sudo a)) (mkState (pre ++ [w_acc a]) fw d (w_pw a)) = Done (lo', s') ->
  lo_curr lo' = Some n -> forall d', validate n lo' (put_depth d' s') = Some s'' ->
  exists l, st_accs s'' = pre ++ l /\ Forall2 (fun b a => checked y (fst b) (snd b) a) ((src, b) :: bs) l /\
    st_depth s'' = d' /\ st_depth s' = d /\ st_fw s'' = (fw || existsb no_cycle l).
Proof.
  induction bs as [|[src2 b2] bs IH]; intros src b pre u sd fw pw w lo' s' n s'' B F R L d' V.
  - cbn [flatten map concat entries_run] in R. inversion R; subst lo' s'. clear R. cbn [lo_curr] in L. inversion L; subst n.
    unfold put_depth in V. cbn [st_accs st_fw st_pw] in V. rewrite validate_mid in V by reflexivity.
    destruct (acc_data_is_valid _ _ _ _) as [[a' f]|] eqn:A; [|discriminate]. inversion V; subst s''. cbn [st_accs st_depth st_fw].
    exists [a']. destruct (valid_stages _ _ _ _ _ _ A) as (_ & _ & _ & _ & _ & EF). ands; auto.
    + constructor; [|constructor]. exists w, f. ands; auto. exists pw, u, sd. exact B.
    + cbn [existsb]. rewrite orb_false_r, EF. reflexivity.
  - change (flatten ((src2, b2) :: bs)) with ((($ "SOURCE", src2) :: b2) ++ flatten bs) in R.
    rewrite entries_run_app in R. cbn [entries_run] in R.
    inversion F as [|? ? F1 F2]; subst. cbn [snd] in F1.
    assert (SRC : access_entry y rec ($ "SOURCE") src2 (mkLocal (Some (length pre)) (w_user w) (w_sudo w)) (mkState (pre ++ [w_acc w]) fw d (w_pw w)) =
      match acc_data_is_valid (w_pw w) (w_user w) (w_sudo w) (w_acc w) with
      | None => Failed
      | Some (a', f) => Done (mkLocal (Some (length (pre ++ [a']))) (w_user w) (w_sudo w),
           mkState ((pre ++ [a']) ++ [set_s s_source (Some src2) new_acc]) (fw || f) d (w_pw w))
      end).
    { unfold access_entry. change (bseq ($ "SOURCE") ($ "%include")) with false. change (bseq ($ "SOURCE") ($ "%include_folder")) with false.
      rewrite bseq_refl. cbv iota. cbn [lo_curr]. rewrite validate_mid by reflexivity.
      destruct (acc_data_is_valid _ _ _ _) as [[a' f]|]; reflexivity. }
    rewrite SRC in R. clear SRC. destruct (acc_data_is_valid _ _ _ _) as [[a' f]|] eqn:A; [|discriminate]. cbn [rbind] in R.
    rewrite block_entries in R by exact F1.
    destruct (block_run y b2 _) as [w2| | | |] eqn:B2; try discriminate. cbn [rbind fst snd] in R.
    destruct (IH src2 b2 (pre ++ [a']) _ _ _ _ _ _ _ _ _ B2 F2 R L d' V) as (l & E1 & E2 & E3 & E4 & E5).
    exists (a' :: l). rewrite <- app_assoc in E1. destruct (valid_stages _ _ _ _ _ _ A) as (_ & _ & _ & _ & _ & EF). ands; auto.
    + constructor; [|exact E2]. exists w, f. ands; auto. exists pw, u, sd. exact B.
    + rewrite E5, EF. cbn [existsb]. unfold no_cycle at 2. rewrite orb_assoc. reflexivity.
Qed.

Lemma before_source y rec es : absent es ([$ "SOURCE"] ++ include_params) -> forall u sd s,
  entries_run y rec es (mkLocal None u sd) s = Done (mkLocal None u sd, s).
Proof.
  induction es as [|[n v] es IH]; intros N u sd s; [reflexivity|]. cbn [entries_run].
  assert (X : access_entry y rec n v (mkLocal None u sd) s = Done (mkLocal None u sd, s)).
  { unfold access_entry.
    assert (X : forall p, In p ([$ "SOURCE"] ++ include_params) -> bseq n p = false).
    { intros p I. destruct (bseq n p) eqn:E; [apply bseq_eq in E; subst; exfalso; apply (N p v); [left; reflexivity|exact I]|reflexivity]. }
    rewrite (X ($ "%include")), (X ($ "%include_folder")), (X ($ "SOURCE"))
      by (unfold include_params; cbn [In app]; tauto). reflexivity. }
  rewrite X. cbn [rbind]. apply IH. intros q x I. apply (N q x). right; exact I.
Qed.

(** ** The end of a file *)
Lemma expand_all_F l l' : M_accfile.expand_all l = Some l' -> Forall2 (fun a b => expand_acc a = Some b) l l'.
Proof.
  revert l'. induction l as [|a l IH]; cbn; intros l' E; [inversion E; constructor|].
  destruct (expand_acc a) as [b|] eqn:X; [|discriminate]. cbn in E. destruct (M_accfile.expand_all l) as [t|]; [|discriminate].
  cbn in E. inversion E; subst. constructor; auto.
Qed.
Lemma defaults_all_F y l l' : defaults_all y l = Some l' -> Forall2 (fun a b => acc_defaults y a = Some b) l l'.
Proof.
  revert l'. induction l as [|a l IH]; cbn; intros l' E; [inversion E; constructor|].
  destruct (acc_defaults y a) as [b|] eqn:X; [|discriminate]. cbn in E. destruct (defaults_all y l) as [t|]; [|discriminate].
  cbn in E. inversion E; subst. constructor; auto.
Qed.

Lemma finish_root y lo s s' : st_depth s = 1 -> finish y lo s = Done s' ->
  exists s1 l1, (match lo_curr lo with Some n => validate n lo (put_depth 0 s) | None => Some (put_depth 0 s) end) = Some s1 /\
    M_accfile.expand_all (st_accs s1) = Some l1 /\ defaults_all y l1 = Some (st_accs s') /\ st_fw s' = st_fw s1 /\ st_depth s' = st_depth s1 /\ st_depth s1 = 0.
Proof.
  intros D E. unfold finish in E. rewrite D in E. change (0 <? 1) with true in E. cbv iota in E. change (1 - 1) with 0 in E. cbv zeta in E.
  match type of E with match ?m with _ => _ end = _ => destruct m as [s1|] eqn:V; [|discriminate] end.
  exists s1. assert (D1 : st_depth s1 = 0).
  { destruct (lo_curr lo) as [n|]; [|inversion V; reflexivity]. unfold validate in V.
    destruct (acc_data_is_valid _ _ _ _) as [[a f]|]; [|discriminate]. cbn in V. inversion V; reflexivity. }
  rewrite D1 in E. change (0 =? 0) with true in E. cbv iota in E.
  destruct (lo_curr lo) as [n|].
  - destruct (M_accfile.expand_all (st_accs s1)) as [l1|]; [|discriminate]. destruct (defaults_all y l1) as [l2|] eqn:DA; [|discriminate].
    inversion E; subst s'. exists l1. ands; auto.
  - destruct (st_accs s1) as [|a0 l0]; [discriminate|].
    destruct (M_accfile.expand_all (a0 :: l0)) as [l1|]; [|discriminate]. destruct (defaults_all y l1) as [l2|] eqn:DA; [|discriminate].
    inversion E; subst s'. exists l1. ands; auto.
Qed.

Lemma load_file y fuel name l fw : load_access fuel y name None = Done (l, fw) ->
  exists s, parse_access_file fuel y name start = Done s /\ st_accs s = l /\ st_fw s = fw /\ valid_access_stanzas l = true.
Proof.
  unfold load_access. destruct (parse_access_file fuel y name start) as [s| | | |]; try discriminate. cbn [rbind].
  destruct (valid_access_stanzas (st_accs s)) eqn:V; [|discriminate]. intros E; inversion E; subst. exists s. auto.
Qed.

Lemma checked_sealed y src b a : checked y src b a -> sealed a.
Proof. intros (w & fw & R & V & _). exists (w_acc w), (w_pw w), (w_user w), (w_sudo w), fw. split; [eapply raw_inv; eauto|exact V]. Qed.

Lemma single_file y name lines es pre bs fuel l fw :
  y_file y name = Some (file lines) -> Forall line_ok lines -> entries lines es -> es = pre ++ flatten bs ->
  absent pre ([$ "SOURCE"] ++ include_params) -> Forall (fun b => absent (snd b) ([$ "SOURCE"] ++ include_params)) bs ->
  load_access fuel y name None = Done (l, fw) ->
  Forall2 (fun b a => final y (fst b) (snd b) a /\ lists_say a /\ complete a) bs l /\ (fw = true <-> exists a, In a l /\ strs a s_cycle_open = None).
Proof.
  intros YF LO EN -> AP AB LD. destruct (load_file _ _ _ _ _ LD) as (s & P & EA & EF & VA). subst l fw.
  destruct fuel as [|fuel]; [discriminate|]. cbn [parse_access_file] in P. rewrite YF in P.
  unfold file_lines in P. rewrite file_lines_run in P by auto. rewrite (lines_entries _ _ _ _ EN LO) in P.
  rewrite entries_run_app, before_source in P by exact AP. cbn [rbind fst snd] in P.
  unfold start in P. cbn [put_depth st_accs st_fw st_pw st_depth] in P. change (0 + 1) with 1 in P.
  destruct bs as [|[src b] bs].
  { cbn in P. discriminate. }
  inversion AB as [|? ? A1 A2]; subst. cbn [snd] in A1.
  change (flatten ((src, b) :: bs)) with ((($ "SOURCE", src) :: b) ++ flatten bs) in P.
  rewrite entries_run_app in P. cbn [entries_run] in P.
  assert (SRC : access_entry y (parse_access_file fuel y) ($ "SOURCE") src (mkLocal None false false) (put_depth 1 (mkState [] false 0 (0, 0))) =
    Done (mkLocal (Some (length (@nil acc))) false false, mkState ([] ++ set_s s_source (Some src) new_acc :: []) false 1 (0, 0))) by reflexivity.
  rewrite SRC in P. clear SRC. cbn [rbind] in P. rewrite block_entries in P by exact A1.
  destruct (block_run y b _) as [w| | | |] eqn:B; try discriminate. cbn [rbind fst snd] in P.
  destruct (entries_run _ _ (flatten bs) _ _) as [[lo' s1]| | | |] eqn:R; try discriminate. cbn [rbind] in P.
  assert (CU : exists n, lo_curr lo' = Some n).
  { clear - R A2. revert R. generalize (parse_access_file fuel y) as rec. intros rec.
    assert (H : forall es lo s, absent es include_params -> entries_run y rec es lo s = Done (lo', s1) -> (exists n, lo_curr lo = Some n) -> exists n, lo_curr lo' = Some n).
    { induction es as [|[n v] es IH]; intros lo s N E [m C]; cbn [entries_run] in E; [inversion E; subst; eauto|].
      destruct (access_entry y rec n v lo s) as [[lo2 s2]| | | |] eqn:AE; try discriminate. cbn [rbind] in E.
      eapply IH; [|exact E|]; [intros q x I; apply (N q x); right; exact I|].
      assert (X : forall p, In p include_params -> bseq n p = false).
      { intros p I. destruct (bseq n p) eqn:Q; [apply bseq_eq in Q; subst; exfalso; apply (N p v); [left; reflexivity|exact I]|reflexivity]. }
      unfold access_entry in AE. rewrite (X ($ "%include")), (X ($ "%include_folder")), (X ($ "%include_keys")) in AE by (unfold include_params; cbn [In]; tauto).
      rewrite C in AE. destruct (bseq n ($ "SOURCE")).
      - destruct (validate m lo s); [|discriminate]. inversion AE; subst. cbn. eauto.
      - destruct (set_param params y n v _) as [w2| | | |]; try discriminate. cbn in AE. inversion AE; subst. cbn. eauto. }
    intros R. eapply H; [|exact R|eexists; reflexivity].
    clear - A2. intros q x I. unfold flatten in I. apply in_concat in I. destruct I as (e & I1 & I2). apply in_map_iff in I1.
    destruct I1 as (bb & <- & I1). destruct I2 as [I2|I2].
    - inversion I2; subst. unfold include_params. cbn [In]. intros [C|[C|[C|[]]]]; discriminate C.
    - rewrite Forall_forall in A2. intros C. apply (A2 bb I1 q x I2). right. exact C. }
  destruct CU as [n CU].
  assert (D1 : st_depth s1 = 1).
  { destruct (validate n lo' (put_depth 0 s1)) as [s2|] eqn:V.
    - destruct (blocks_run y (parse_access_file fuel y) 1 bs src b [] _ _ _ _ _ _ _ _ _ B A2 R CU 0 V) as (l0 & _ & _ & _ & D & _). exact D.
    - unfold finish in P. rewrite CU in P. cbv zeta in P. unfold validate in P, V. cbn [get_acc put_depth st_accs st_pw] in P, V.
      unfold get_acc in P, V. cbn [st_accs] in P, V. destruct (acc_data_is_valid _ _ _ _) as [[? ?]|]; [discriminate V|discriminate P]. }
  destruct (finish_root _ _ _ _ D1 P) as (s2 & l1 & V & EX & DE & FW & _). rewrite CU in V.
  destruct (blocks_run y (parse_access_file fuel y) 1 bs src b [] _ _ _ _ _ _ _ _ _ B A2 R CU 0 V) as (l0 & E1 & E2 & _ & _ & E5).
  cbn [app] in E1. rewrite E1 in EX. apply expand_all_F in EX. apply defaults_all_F in DE.
  assert (G : Forall2 (fun b a => final y (fst b) (snd b) a /\ lists_say a /\ complete a) ((src, b) :: bs) (st_accs s) /\
              existsb no_cycle (st_accs s) = existsb no_cycle l0).
  { clear - E2 EX DE. revert l1 EX DE E2. generalize ((src, b) :: bs) as bl. generalize (st_accs s) as l2. intros l2 bl l1 EX DE E2.
    revert l1 l2 EX DE. induction E2 as [|bb a0 bl l0 C _ IH]; intros l1 l2 EX DE.
    - inversion EX; subst. inversion DE; subst. split; constructor.
    - inversion EX as [|? a1 ? l1' X1 X2]; subst. inversion DE as [|? a2 ? l2' Y1 Y2]; subst.
      destruct (IH _ _ X2 Y2) as [I1 I2]. split.
      + constructor; [|exact I1]. ands.
        * destruct C as (w & f & C1 & C2 & _). exists w, a0, f, a1. auto.
        * eapply sealed_lists; [eapply checked_sealed; exact C|exact X1|exact Y1].
        * eapply sealed_complete; [eapply checked_sealed; exact C|exact X1|exact Y1].
      + cbn [existsb]. rewrite I2. f_equal. unfold no_cycle.
        destruct (defaults_spec _ _ _ Y1) as ([DS _] & _). rewrite DS by (cbn; intuition congruence).
        destruct (expand_spec _ _ X1) as [-> _]. reflexivity. }
  destruct G as [G1 G2]. split; [exact G1|].
  rewrite FW, E5, <- G2. cbn [orb]. rewrite existsb_exists. unfold no_cycle.
  split; intros (a & I & N); exists a; (split; [exact I|]); destruct (strs a s_cycle_open); cbn in *; congruence.
Qed.
