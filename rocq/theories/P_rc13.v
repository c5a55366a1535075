(** Proofs about the configuration of the client: files that are accepted. *)
From Verif Require Import Bytes M_accfile M_base64 M_util M_message M_codec M_cipher M_ctx M_access M_replay M_cycle M_incoming M_conf M_codec M_client M_send
  S_base64 S_text S_conf S_accfile S_client S_send P_bytes P_base64 P_util P_util2 P_access P_replay P_conf P_accfile P_accfile2 P_accfile3 P_accfile4 P_accfile6 P_message P_codec P_ctx2 P_client P_client4 M_rc S_rc P_rc P_rc2 P_rc3 P_rc4 P_rc5 P_rc6 P_rc8 P_rc9 P_rc10 P_rc11.
From Coq Require Import Init.Byte List ZArith Bool Lia.
Import ListNotations.
Open Scope Z_scope.

Local Ltac ands := repeat match goal with |- _ /\ _ => split end.

Lemma number_good f hi v o : ok_num hi v = true -> exists o', e_number f hi v o = Ok (true, o').
Proof. unfold ok_num, e_number. destruct (strtol_wrapper v 0 hi) as [x e]. cbn [snd]. intros ->. eauto. Qed.
Lemma name_good f z o : (0 <=? z) = true -> exists o', e_name f z o = Ok (true, o').
Proof. unfold e_name. destruct (Z.ltb_spec z 0); [lia|]. eauto. Qed.
Lemma offset_good f v o : ok_off v = true -> exists o', e_offset f v o = Ok (true, o').
Proof. unfold ok_off, e_offset. destruct (time_offset v) as [[[z [|]]|]|]; try discriminate. eauto. Qed.
Lemma good_taken n v : In n variables -> good (n, v) -> exists x, lookup var_array n = Some x /\ forall o, exists o', parse_rc_param x v o = Ok (true, o').
Proof.
  intros I G. unfold good in G. cbn [fst snd] in G. unfold variables in I. cbn [In] in I.
  repeat (destruct I as [I|I]; [subst n; eexists; split; [reflexivity|]; intros o; cbn [parse_rc_param]; unfold e_yes, e_text; cbv beta;
    first [ eexists; reflexivity | apply number_good; exact G | apply name_good; exact G
          | (match goal with |- exists o', Ok (?b, _) = _ => assert (B : b = true) by exact G; rewrite B; eexists; reflexivity end) | idtac ]|]); try contradiction.
  - change (strcaseeq v ($ "source") || strcaseeq v ($ "resolve") || is_valid_ipv4_addr (ztake 15 v) (zlen (ztake 15 v)) = true) in G.
    destruct (strcaseeq v ($ "source")); [eauto|]. destruct (strcaseeq v ($ "resolve")); [eauto|]. cbn [orb] in G. cbv zeta.
    change (txt (set_t t_ip v (set_n q_resolve 0 o)) t_ip) with (ztake 15 v). rewrite G. eauto.
  - change (ok_off (if minus_value v then tl v else v) = true) in G. destruct v as [|c r]; [apply offset_good; exact G|]. cbn [minus_value tl] in G. destruct (beq c "-"%byte); apply offset_good; exact G.
  - change (is_yes v || ok_num 4 v = true) in G. destruct (is_yes v); [eauto|]. apply number_good. exact G.
Qed.

(** ** A stanza is read *)
Lemma rc_lines_forward sec lines : Forall line_ok lines -> Forall simple lines -> forall here es, stanza sec here lines es ->
  Forall (fun e => In (fst e) variables /\ good e) es -> forall o, exists o', rc_lines sec (nl_lines lines) here false o = Ok (Some o').
Proof.
  intros LO SI. induction lines as [|l lines IH]; intros here es ST G o; [exists o; reflexivity|].
  pose proof (Forall_inv LO) as (NL & N0 & _). apply Forall_inv_tail in LO. pose proof (Forall_inv SI) as SL. apply Forall_inv_tail in SI.
  specialize (IH LO SI).
  assert (W : forall o, (forall b, exists o', rc_lines sec (nls b l :: nl_lines lines) here false o = Ok (Some o')) -> (l = [] -> exists o', rc_lines sec (nl_lines lines) here false o = Ok (Some o')) ->
     exists o', rc_lines sec (nl_lines (l :: lines)) here false o = Ok (Some o')).
  { intros o0 A B. destruct (nl_lines_cons l lines) as (b & NLC). rewrite NLC. destruct b; [apply A|]. destruct l; [apply B; reflexivity|apply A]. }
  apply W; clear W.
  - intros b. cbn [rc_lines]. rewrite empty_nls, rc_section_nls, rc_param_nls.
    inversion ST as [|h' l' ls' es' C S'|h' l' n ls' es' H N S'|h' l' n ls' es' H N S'|l' ls' es' C NH S'|l' n v ls' es' SE S']; subst.
    + apply empty_line_comment in C; [|auto]. rewrite C. eapply IH; eauto.
    + assert (E : is_empty_line (hd x00 l) = false) by (apply not_true_is_false; intros Q; apply empty_line_comment in Q; [|auto]; exact (proj1 H Q)).
      rewrite E. pose proof (heading_rc_section _ _ H) as R. rewrite R. apply same_name_eq in N. rewrite N. eapply IH; eauto.
    + assert (E : is_empty_line (hd x00 l) = false) by (apply not_true_is_false; intros Q; apply empty_line_comment in Q; [|auto]; exact (proj1 H Q)).
      rewrite E. pose proof (heading_rc_section _ _ H) as R. rewrite R. rewrite <- same_name_eq in N. apply not_true_is_false in N. rewrite N. eapply IH; eauto.
    + assert (E : is_empty_line (hd x00 l) = false) by (apply not_true_is_false; intros Q; apply empty_line_comment in Q; [|auto]; exact (C Q)). rewrite E.
      destruct (rc_section l) as [n|] eqn:R; [apply rc_section_heading in R; [exfalso; exact (NH _ R)|exact C]|]. cbn [negb]. eapply IH; eauto.
    + assert (C : ~ comment l) by exact (proj1 SE).
      assert (E : is_empty_line (hd x00 l) = false) by (apply not_true_is_false; intros Q; apply empty_line_comment in Q; [|auto]; exact (C Q)). rewrite E.
      destruct (rc_section l) as [n'|] eqn:R; [apply rc_section_heading in R; [exfalso; exact (proj1 (proj2 SE) _ R)|exact C]|]. cbn [negb].
      destruct (sets_rc_param _ _ _ SE NL) as [_ P]. rewrite P. pose proof (Forall_inv G) as (V & GE). cbn [fst] in V. destruct (good_taken _ _ V GE) as (x & LK & T). rewrite LK. destruct (T o) as (o1 & P1). rewrite P1. cbn [orb negb].
      eapply IH; eauto. eapply Forall_inv_tail; eauto.
  - intros ->. inversion ST as [|h' l' ls' es' C S'|h' l' n ls' es' H N S'|h' l' n ls' es' H N S'|l' ls' es' C NH S'|l' n v ls' es' SE S']; subst;
      try (exfalso; match goal with H : heading [] _ |- _ => apply (proj1 H); left; reflexivity | C : ~ comment [] |- _ => apply C; left; reflexivity | SE : sets [] _ _ |- _ => apply (proj1 SE); left; reflexivity end).
    eapply IH; eauto.
Qed.
