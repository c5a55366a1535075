(** Proofs about the configuration of the client: saving a stanza. *)
From Verif Require Import Bytes M_accfile M_base64 M_util M_message M_codec M_cipher M_ctx M_access M_replay M_cycle M_incoming M_conf M_codec M_client M_send
  S_base64 S_text S_conf S_accfile S_client S_send P_bytes P_base64 P_util P_util2 P_access P_replay P_conf P_accfile P_accfile2 P_accfile3 P_accfile4 P_accfile6 P_message P_codec P_ctx2 P_client P_client4 M_rc S_rc P_rc P_rc2.
From Coq Require Import Init.Byte List ZArith Bool Lia.
Import ListNotations.
Open Scope Z_scope.

Local Ltac ands := repeat match goal with |- _ /\ _ => split end.

(** ** Entries of a stanza, as a function *)
Definition clean (l : bytes) : Prop := ~ In x0a l /\ ~ In x00 l /\ simple l.
Fixpoint scan (name : bytes) (h : bool) (ls : list bytes) : option (list (bytes * bytes) * bool) :=
  match ls with
  | [] => Some ([], h)
  | l :: r =>
      if is_empty_line (hd x00 l) then scan name h r
      else match rc_section l with
      | Some n => scan name (strcaseeq n name) r
      | None => if h then match rc_param l, scan name true r with Some e, Some (es, h') => Some (e :: es, h') | _, _ => None end else scan name false r
      end
  end.
Lemma clean_comment l : clean l -> (is_empty_line (hd x00 l) = true <-> comment l).
Proof. intros (_ & N & _). now apply empty_line_comment. Qed.
Lemma clean_heading l n : clean l -> is_empty_line (hd x00 l) = false -> (rc_section l = Some n <-> heading l n).
Proof.
  intros C E. split; [|apply heading_rc_section]. intros S. apply rc_section_heading; auto. rewrite <- clean_comment by auto. congruence.
Qed.
Lemma scan_stanza name ls : Forall clean ls -> forall h es, stanza name h ls es <-> exists h', scan name h ls = Some (es, h').
Proof.
  induction 1 as [|l ls C F IH]; intros h es.
  - split; [intros S; inversion S; subst; exists h; reflexivity|intros (h' & E); injection E as <- <-; constructor].
  - cbn [scan]. split.
    + intros S. inversion S as [|? ? ? ? C1 A1|? ? n1 ? ? H1 N1 A1|? ? n1 ? ? H1 N1 A1|? ? ? C1 N1 A1|? n1 v1 ? es1 S1 A1]; subst.
      * rewrite (proj2 (clean_comment l C) C1). now apply IH.
      * assert (NE : is_empty_line (hd x00 l) = false) by (apply not_true_is_false; rewrite (clean_comment l C); exact (proj1 H1)).
        rewrite NE, (heading_rc_section _ _ H1), (proj2 (same_name_eq _ _) N1). now apply IH.
      * assert (NE : is_empty_line (hd x00 l) = false) by (apply not_true_is_false; rewrite (clean_comment l C); exact (proj1 H1)).
        rewrite NE, (heading_rc_section _ _ H1). replace (strcaseeq n1 name) with false by (symmetry; apply not_true_is_false; now rewrite same_name_eq). now apply IH.
      * assert (NE : is_empty_line (hd x00 l) = false) by (apply not_true_is_false; now rewrite (clean_comment l C)).
        rewrite NE. destruct (rc_section l) as [n|] eqn:R; [exfalso; apply (N1 n); now apply clean_heading|]. now apply IH.
      * assert (NE : is_empty_line (hd x00 l) = false) by (apply not_true_is_false; rewrite (clean_comment l C); exact (proj1 S1)).
        destruct (sets_rc_param _ _ _ S1 (proj1 C)) as [R P]. rewrite NE, R, P. apply IH in A1 as (h' & ->). eauto.
    + destruct (is_empty_line (hd x00 l)) eqn:NE.
      { intros S. apply st_comment; [now apply clean_comment|]. now apply IH. }
      destruct (rc_section l) as [n|] eqn:R.
      { apply (clean_heading l n C NE) in R. destruct (strcaseeq n name) eqn:SN; intros S.
        - eapply st_enter; [exact R|now apply same_name_eq|]. now apply IH.
        - eapply st_leave; [exact R|rewrite <- same_name_eq; congruence|]. now apply IH. }
      assert (NC : ~ comment l) by (rewrite <- (clean_comment l C); congruence).
      assert (NH : forall n, ~ heading l n) by (intros n H; apply heading_rc_section in H; congruence).
      destruct h.
      * destruct (rc_param l) as [[n v]|] eqn:P; [|intros (? & Q); discriminate]. destruct (scan name true ls) as [[es1 h1]|] eqn:S; [|intros (? & Q); discriminate].
        intros (h' & Q). injection Q as <- <-. apply st_entry; [apply rc_param_sets; try apply C; auto|]. apply IH. eauto.
      * intros S. apply st_skip; auto. now apply IH.
Qed.
Lemma scan_app name a b : forall h, scan name h (a ++ b) =
  match scan name h a with Some (es, h1) => match scan name h1 b with Some (es', h2) => Some (es ++ es', h2) | None => None end | None => None end.
Proof.
  induction a as [|l a IH]; intros h; cbn [app scan]; [destruct (scan name h b) as [[? ?]|]; reflexivity|].
  destruct (is_empty_line (hd x00 l)); [apply IH|]. destruct (rc_section l); [apply IH|]. destruct h; [|apply IH].
  destruct (rc_param l) as [e|]; [|reflexivity]. rewrite IH. destruct (scan name true a) as [[es h1]|]; [|reflexivity].
  destruct (scan name h1 b) as [[es' h2]|]; reflexivity.
Qed.
(** Lines that are not comments *)
Definition nc (ls : list bytes) : list bytes := filter (fun l => negb (is_empty_line (hd x00 l))) ls.
Lemma scan_nc name ls : forall h, scan name h (nc ls) = scan name h ls.
Proof.
  induction ls as [|l ls IH]; intros h; cbn [nc filter scan]; [reflexivity|]. fold (nc ls). destruct (is_empty_line (hd x00 l)) eqn:E; cbn [negb]; [apply IH|].
  cbn [scan]. rewrite E. destruct (rc_section l); [apply IH|]. destruct h; [|apply IH]. now rewrite IH.
Qed.
(** Lines that are no headings *)
Definition flat (ls : list bytes) : Prop := Forall (fun l => is_empty_line (hd x00 l) = false -> rc_section l = None) ls.
Lemma scan_flat_out name ls : flat ls -> scan name false ls = Some ([], false).
Proof. induction 1 as [|l ls E F IH]; cbn [scan]; [reflexivity|]. destruct (is_empty_line (hd x00 l)); [exact IH|]. now rewrite E. Qed.
Lemma scan_none name ls : Forall (fun l => forall n, is_empty_line (hd x00 l) = false -> rc_section l = Some n -> strcaseeq n name = false) ls -> scan name false ls = Some ([], false).
Proof.
  induction 1 as [|l ls E F IH]; cbn [scan]; [reflexivity|]. destruct (is_empty_line (hd x00 l)); [exact IH|].
  destruct (rc_section l) as [n|]; [|exact IH]. now rewrite (E n).
Qed.
(** Lines with these entries and nothing else *)
Definition entries_of (ls : list bytes) (es : list (bytes * bytes)) : Prop :=
  Forall2 (fun l e => is_empty_line (hd x00 l) = false /\ rc_section l = None /\ rc_param l = Some e) ls es.
Lemma entries_scan name ls es : entries_of ls es -> scan name true ls = Some (es, true).
Proof. induction 1 as [|l e ls es (A & B & C) F IH]; cbn [scan]; [reflexivity|]. now rewrite A, B, C, IH. Qed.
Lemma entries_flat ls es : entries_of ls es -> flat ls.
Proof. induction 1 as [|l e ls es (A & B & C) F IH]; constructor; auto. Qed.

(** ** The lines of the saved variables *)
Definition var_line1 (e : bytes * bytes) : bytes := fst e ++ repeat " "%byte (24 - List.length (fst e)) ++ $ "    " ++ snd e.
Definition term (ls : list bytes) : bytes := concat (map (fun l => l ++ [x0a]) ls).
Lemma term_app a b : term (a ++ b) = term a ++ term b.
Proof. unfold term. now rewrite map_app, concat_app. Qed.
Lemma vars_text_lines o m : vars_text o m = term (map var_line1 (saved o m)).
Proof.
  unfold vars_text, saved. induction var_array as [|[n x] l IH]; [reflexivity|]. cbn [map concat flat_map]. rewrite map_app, term_app, <- IH. f_equal.
  destruct (mem_var x m); [|reflexivity]. destruct (var_text x o) as [v|]; [|reflexivity]. unfold term, var_line, var_line1. cbn [map concat fst snd].
  now rewrite app_nil_r, <- !app_assoc.
Qed.
Lemma term_file ls : term ls = file (ls ++ [[]]).
Proof.
  unfold term, file. induction ls as [|l ls IH]; [reflexivity|]. cbn [map concat app]. rewrite IH. destruct ls; cbn [app join]; now rewrite <- ?app_assoc.
Qed.
Lemma nl_lines_term ls : nl_lines (ls ++ [[]]) = map (fun l => l ++ [x0a]) ls.
Proof. induction ls as [|l ls IH]; [reflexivity|]. destruct ls as [|l2 ls]; [reflexivity|]. cbn [app map nl_lines] in *. now rewrite <- IH. Qed.

Definition known_name (n : bytes) : bool := match lookup var_array n with Some _ => true | None => false end.
Definition plain_name (n : bytes) : bool :=
  forallb (fun c => (bv "A"%byte <=? bv c) && (bv c <=? bv "Z"%byte) || (bv "0"%byte <=? bv c) && (bv c <=? bv "9"%byte) || (bv c =? bv "_"%byte)) n && negb (bseq n []).
Lemma var_names : forallb (fun '(n, _) => plain_name n) var_array = true.
Proof. vm_compute. reflexivity. Qed.
Lemma saved_name o m n v : In (n, v) (saved o m) -> plain_name n = true /\ exists x, In (n, x) var_array /\ mem_var x m = true /\ var_text x o = Some v.
Proof.
  intros I. apply in_flat_map in I as ((n' & x) & J & I). destruct (mem_var x m) eqn:M; [|destruct I]. destruct (var_text x o) as [w|] eqn:V; [|destruct I].
  destruct I as [I|[]]. injection I as -> ->. split; [|eauto]. pose proof var_names as F. rewrite forallb_forall in F. exact (F _ J).
Qed.
Lemma plain_char n : plain_name n = true -> n <> [] /\ Forall (fun c => ~ blank c /\ c <> ":"%byte /\ c <> "["%byte /\ c <> x00 /\ c <> "#"%byte /\ c <> ";"%byte) n.
Proof.
  unfold plain_name. rewrite andb_true_iff, forallb_forall, negb_true_iff. intros [F N]. split; [intros ->; discriminate N|]. apply Forall_forall. intros c I. apply F in I.
  rewrite not_blank. cbn [In]. destruct c; try discriminate I; repeat split; intuition discriminate.
Qed.
Lemma skip_pad k r : skip_space (repeat " "%byte k ++ r) = skip_space r.
Proof. induction k as [|k IH]; [reflexivity|exact IH]. Qed.
Lemma pad_blank k : Forall blank (repeat " "%byte k).
Proof. apply Forall_forall. intros c I. apply repeat_spec in I. subst. vm_compute. tauto. Qed.
Lemma blank_spec c : blank c <-> In c [" "%byte; x09; x0a; x0b; x0c; x0d].
Proof.
  rewrite <- isspace_blank. destruct c; vm_compute; intuition discriminate.
Qed.
Lemma var_line_sets n v : plain_name n = true -> one_word v -> sets (var_line1 (n, v)) n v /\ clean (var_line1 (n, v)).
Proof.
  intros PN (_ & NV & N0 & FV). destruct (plain_char n PN) as (NN & FN). unfold var_line1. cbn [fst snd].
  assert (C : clean (n ++ repeat " "%byte (24 - length n) ++ $ "    " ++ v)).
  { assert (Q : forall b, blank b \/ b = x00 -> b <> " "%byte -> ~ In b (n ++ repeat " "%byte (24 - length n) ++ $ "    " ++ v)).
    { intros b B NB I. rewrite !in_app_iff in I. destruct I as [I|[I|[I|I]]].
      - rewrite Forall_forall in FN. apply FN in I. intuition congruence.
      - apply repeat_spec in I. contradiction.
      - vm_compute in I. intuition congruence.
      - destruct B as [B| ->]; [|contradiction]. rewrite Forall_forall in FV. apply FV in I. intuition. }
    unfold clean, simple. ands; apply Q; rewrite ?blank_spec; cbn [In]; try discriminate; intuition. }
  split; [|exact C]. destruct n as [|c n]; [congruence|]. cbn [app] in *. pose proof (Forall_inv FN) as (B1 & B2 & B3 & B4 & B5 & B6).
  assert (NC : ~ comment (c :: n ++ repeat " "%byte (24 - length (c :: n)) ++ $ "    " ++ v)).
  { intros [Q|Q]; [discriminate|]. cbn [hd] in Q. rewrite blank_spec in B1. cbn [In] in *. intuition. }
  split; [exact NC|]. split.
  - intros h H. apply heading_rc_section in H. unfold rc_section in H. cbn [skip_space] in H.
    assert (IS : isspace c = false) by (apply not_true_is_false; rewrite isspace_blank; exact B1).
    rewrite IS in H. rewrite (proj2 (beq_neq c "["%byte) B3) in H. discriminate H.
  - exists [], (c :: n), (repeat " "%byte (24 - length (c :: n)) ++ $ "    "), []. ands; auto.
    + cbn [app]. now rewrite app_nil_r, <- !app_assoc.
    + eapply Forall_impl; [|exact FN]. intros ? [? _]. auto.
    + left. split; [reflexivity|]. intros I. rewrite Forall_forall in FN. apply FN in I. intuition.
    + intros Q. apply app_eq_nil in Q as [_ Q]. discriminate Q.
    + apply Forall_app. split; [apply pad_blank|]. repeat constructor; vm_compute; tauto.
Qed.
Lemma saved_lines o m : Forall (fun e => one_word (snd e)) (saved o m) ->
  entries_of (map var_line1 (saved o m)) (saved o m) /\ Forall clean (map var_line1 (saved o m)).
Proof.
  intros F. assert (Q : forall n v, In (n, v) (saved o m) -> sets (var_line1 (n, v)) n v /\ clean (var_line1 (n, v))).
  { intros n v I. rewrite Forall_forall in F. apply var_line_sets; [exact (proj1 (saved_name _ _ _ _ I))|exact (F _ I)]. }
  clear F. induction (saved o m) as [|[n v] l IH]; [split; constructor|]. destruct IH as [A B]; [intros; apply Q; now right|].
  destruct (Q n v (or_introl eq_refl)) as [S C]. cbn [map]. split; constructor; auto. destruct (sets_rc_param _ _ _ S (proj1 C)) as [R P].
  ands; auto. apply not_true_is_false. rewrite (clean_comment _ C). exact (proj1 S).
Qed.
