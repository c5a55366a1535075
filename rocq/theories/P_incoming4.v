(** Proofs: which stanza acts on a packet. *)
From Verif Require Import Bytes P_bytes M_base64 S_base64 S_text S_codec S_cipher S_ctx S_access S_cycle M_util M_message M_codec M_cipher M_ctx M_access
  M_replay M_cycle M_incoming S_incoming P_util P_util2 P_message P_codec P_access P_replay P_cycle P_ctx P_ctx2 P_ctx3 P_ctx4 P_ctx6
  P_incoming P_incoming2 P_incoming3.
From Verif Require T_access.
From Coq Require Import Init.Byte List ZArith Bool Lia.
Import ListNotations.
Open Scope Z_scope.

Lemma ports_iff a m d p fwd : received m -> asks a p fwd m d -> s_type m <> 0 -> NoDup (a_open a) ->
  (acc_check_port_access (a_open a) (a_restrict a) (d_remain d) = true <-> ports_allowed a (d_remain d)).
Proof.
  intros R AS T ND. destruct (received_split m R) as (ip & rest & E & _ & NC & _ & _ & _ & IT).
  destruct (IT T) as (items & NI & F & Q). destruct (as_split _ _ _ _ _ AS) as (E' & i & x & y & z & w & TX & _).
  assert (D : d_remain d = rest). { symmetry. apply (cut_at ip rest (d_src d) (d_remain d)); [auto|eapply ip_comma; eauto|congruence]. }
  rewrite D, Q. destruct (T_access.C26_validated_requests items NI F) as (pl & CS & F2).
  rewrite (T_access.C26_port_check_partial _ _ _ items pl ND CS F2). unfold ports_allowed. split.
  - intros [A B]. exists items, pl. split; [exact CS|]. split; [|auto].
    clear -F2. induction F2 as [|? ? ? ? [? ?]]; constructor; auto.
  - intros (items' & pl' & CS' & F2' & A & B). assert (EI : items' = items).
    { destruct CS as (E1 & N1 & F1), CS' as (E2 & N2 & F3). apply split_unique; auto; congruence. }
    subst items'. assert (EP : pl' = pl).
    { clear -F2 F2'. revert pl' F2'. induction F2 as [|it [u v] items pl [P L] _ IH]; intros pl' F2'; inversion F2'; subst; auto.
      match goal with X : port_entry it (fst ?q) _ |- _ => destruct q as [u' v'] end. cbn [fst snd] in *.
      match goal with X : port_entry it u' v' |- _ => destruct (port_entry_unique _ _ _ _ _ P X) as [-> ->] end. f_equal; auto. }
    subst pl'. auto.
Qed.

(** A command cycle that can be opened can also be closed: the close command can be built. *)
Definition unclosable (a : stanza) (d : spa_data) : Prop :=
  exists cc, a_cycle a = Some cc /\ cc_do_close cc = true /\ build_cmd d (cc_close cc) (cc_timer cc) = Ok None.

Lemma act_iff cf now a k d cy m p fwd fl effs cy' : received m -> asks a p fwd m d -> NoDup (a_open a) ->
  act cf now a k d cy = Ok (fl, effs, cy') ->
  (effs = [] /\ fl = Next /\ forall e, ~ may cf a k m d e) \/
  (exists e, effs = [e] /\ may cf a k m d e /\ (fl = Break \/ (fl = Next /\ unclosable a d))).
Proof.
  intros R AS ND. unfold act. pose proof (as_type _ _ _ _ _ AS) as TY. destruct (a_cycle a) as [cc|] eqn:CY.
  - unfold cmd_cycle_open. destruct (build_cmd d (cc_open cc) (cc_timer cc)) as [[o|]|] eqn:B; [| |discriminate].
    + assert (MY : may cf a k m d (CycleOpen k o)) by (cbn [may]; split; eauto).
      destruct (cc_do_close cc) eqn:DC.
      * destruct (build_cmd d (cc_close cc) (cc_timer cc)) as [[cl|]|] eqn:B2; [| |discriminate];
          intro E; injection E as <- <- <-; right; exists (CycleOpen k o); (split; [reflexivity|]); (split; [exact MY|]); auto.
        right. split; auto. exists cc. auto.
      * intro E; injection E as <- <- <-. right. exists (CycleOpen k o). auto.
    + intro E; injection E as <- <- <-. left. split; auto. split; auto. intros e M. destruct e; cbn [may] in M.
      * destruct M as (_ & _ & Q & _). congruence.
      * destruct M as (_ & Q & _). congruence.
      * destruct M as (_ & c' & Q & Q'). congruence.
  - destruct (d_type d =? FKO_COMMAND_MSG) eqn:T.
    + apply Z.eqb_eq in T. unfold FKO_COMMAND_MSG in T. rewrite TY in T.
      destruct (a_cmd a) eqn:AC; [destruct (cf_test cf) eqn:CT|].
      * unfold process_cmd_msg. rewrite AC, CT. cbn [negb]. intro E; injection E as <- <- <-. left. split; auto. split; auto.
        intros e M. destruct e; cbn [may] in M; intuition (try congruence). destruct H0 as (? & ? & ?). congruence.
      * assert (LR : zlen (d_remain d) <= 1399).
        { destruct (as_split _ _ _ _ _ AS) as (E' & _). destruct (rc_msg m R) as (_ & _ & L). rewrite E', !zlen_app in L.
          pose proof (zlen_nonneg (d_src d)). change (zlen [","%byte]) with 1 in L. lia. }
        destruct (process_cmd_msg cf a k d) as [[e|]|] eqn:P; [| |discriminate]; intro E; injection E as <- <- <-.
        -- right. exists e. split; auto. split; [|auto]. apply cmd_line_model in P; auto. destruct P as (cmd & who & -> & C & W).
           cbn [may]. auto 10.
        -- exfalso. revert P. unfold process_cmd_msg. rewrite AC, CT. cbn [negb]. destruct (if a_sudo a then _ else _); discriminate.
      * unfold process_cmd_msg. rewrite AC. cbn [negb]. intro E; injection E as <- <- <-. left. split; auto. split; auto.
        intros e M. destruct e; cbn [may] in M; intuition (try congruence). destruct H0 as (? & ? & ?). congruence.
    + apply Z.eqb_neq in T. unfold FKO_COMMAND_MSG in T. rewrite TY in T.
      pose proof (ports_iff a m d p fwd R AS T ND) as PI.
      destruct (acc_check_port_access (a_open a) (a_restrict a) (d_remain d)) eqn:PA; cbn [negb].
      * destruct (cf_test cf) eqn:CT; intro E; injection E as <- <- <-.
        -- left. split; auto. split; auto. intros e M. destruct e; cbn [may] in M; intuition (try congruence).
           destruct H0 as (? & ? & ?). congruence.
        -- right. exists (Grant k d). split; auto. split; [|auto]. cbn [may]. repeat split; auto. apply PI; auto.
      * intro E; injection E as <- <- <-. left. split; auto. split; auto. intros e M. destruct e; cbn [may] in M.
        -- destruct M as (_ & _ & _ & _ & _ & Q). apply PI in Q. discriminate.
        -- destruct M as (_ & _ & Q & _). congruence.
        -- destruct M as (_ & ? & Q & _). congruence.
Qed.

Lemma lets_fun H G cf now p fwd data a k e e' : hashes_ok H -> b64_all data = true -> stanza_ok a -> packet_ok p ->
  decrypt_packet H G a data <> Fault ->
  lets H G cf now p fwd data a k e -> lets H G cf now p fwd data a k e' -> e = e'.
Proof.
  intros HO B SO PO NF (_ & _ & m & d & O & R & PS & AS & MY) (_ & _ & m' & d' & O' & R' & PS' & AS' & MY').
  destruct (open_complete H G a data m HO B SO O) as (c & sg & [Q|Q] & _ & SH & _); [contradiction|].
  destruct (open_complete H G a data m' HO B SO O') as (c' & sg' & [Q'|Q'] & _ & SH' & _); [contradiction|].
  rewrite Q in Q'. injection Q' as <- <-. assert (m' = m) by (eapply shows_unique; eauto). subst m'.
  assert (C1 : checks cf now (k_info p) fwd a c = Ok (Pass d)) by (apply (check_iff cf now p fwd a c m d SH R PO); auto).
  assert (C2 : checks cf now (k_info p) fwd a c = Ok (Pass d')) by (apply (check_iff cf now p fwd a c m d' SH R PO); auto).
  rewrite C1 in C2. injection C2 as <-. eapply may_fun; eauto.
Qed.

Section Steps.
Variables (H : hashes) (G : gpg) (cf : conf) (en : env) (p : packet) (data fwd : bytes) (raw : option bytes).
Hypotheses (HO : hashes_ok H) (B : b64_all data = true) (PO : packet_ok p).

Lemma step_sound a k added rp cy fl eff a' added' rp' cy' : stanza_ok a -> NoDup (a_open a) ->
  step H G cf en (k_info p) data fwd raw a k added rp cy = Ok (fl, eff, a', added', rp', cy') ->
  (eff = [] /\ fl = Next) \/
  (exists e, eff = [e] /\ lets H G cf (e_now en) p fwd data a k e /\
    (fl = Break \/ (fl = Next /\ exists m d, opens H G a data m /\ asks a p fwd m d /\ unclosable a d))).
Proof.
  intros SO ND. unfold step. destruct (src_dst_check a (k_info p)) eqn:SD; cbn [negb].
  2:{ intro E; injection E as <- <- <- <- <- <-. auto. }
  destruct (check_stanza_expiration (e_now en) a) as [live a1] eqn:X. destruct live; cbn [negb].
  2:{ intro E; injection E as <- <- <- <- <- <-. auto. }
  destruct (expiration_cases (e_now en) a) as [Q|[Q|[Q _]]]; rewrite Q in X; try discriminate. injection X as <-.
  destruct (decrypt_packet H G a data) as [[[c sg]|]|] eqn:DP; [| |discriminate].
  2:{ intro E; injection E as <- <- <- <- <- <-. auto. }
  destruct (note_replay cf en (k_info p) raw added rp) as [[okd added1] rp1]. destruct okd; cbn [negb].
  2:{ intro E; injection E as <- <- <- <- <- <-. auto. }
  destruct (handle_gpg_sigs a (encryption_type (Some data)) c sg) as [[|]|] eqn:GS; [| |discriminate].
  2:{ intro E; injection E as <- <- <- <- <- <-. auto. }
  destruct (open_sound H G a data c sg HO B SO DP GS) as (m & O & SH & R).
  destruct (check_refuse cf (e_now en) p fwd a c m SH R PO) as [[CK NO]|(d & CK & PS & AS)]; rewrite CK.
  { intro E; injection E as <- <- <- <- <- <-. auto. }
  destruct (act cf (e_now en) a k d cy) as [[[fl1 eff1] cy1]|] eqn:AC; [|discriminate].
  intro E; injection E as <- <- <- <- <- <-.
  destruct (act_iff _ _ _ _ _ _ m p fwd _ _ _ R AS ND AC) as [(-> & -> & _)|(e & -> & MY & FL)]; [auto|].
  right. exists e. split; auto. split.
  - split; [apply addressed_iff; auto|]. split; [apply expired_iff; auto|]. exists m, d. auto.
  - destruct FL as [->|[-> U]]; [auto|right; split; auto; exists m, d; auto].
Qed.

Lemma step_complete a k added rp cy fl a' added' rp' cy' : stanza_ok a -> NoDup (a_open a) ->
  fst (fst (note_replay cf en (k_info p) raw added rp)) = true ->
  step H G cf en (k_info p) data fwd raw a k added rp cy = Ok (fl, [], a', added', rp', cy') ->
  forall e, ~ lets H G cf (e_now en) p fwd data a k e.
Proof.
  intros SO ND NR. unfold step. intros S0 e (AD & EX & m & d & O & R & PS & AS & MY). revert S0.
  apply addressed_iff in AD. rewrite AD. cbn [negb]. apply expired_iff in EX. rewrite EX. cbn [negb].
  destruct (open_complete H G a data m HO B SO O) as (c & sg & [Q|Q] & GS & SH & _); rewrite Q; [discriminate|].
  destruct (note_replay cf en (k_info p) raw added rp) as [[okd added1] rp1]. cbn [fst] in NR. subst okd. cbn [negb].
  rewrite GS. rewrite (proj2 (check_iff cf (e_now en) p fwd a c m d SH R PO) (conj PS AS)).
  destruct (act cf (e_now en) a k d cy) as [[[fl1 eff1] cy1]|] eqn:AC; [|discriminate].
  intro E; injection E as <- -> <- <- <- <-.
  destruct (act_iff _ _ _ _ _ _ m p fwd _ _ _ R AS ND AC) as [(_ & _ & N)|(e1 & Q1 & _)]; [|discriminate].
  apply (N e). auto.
Qed.

Lemma noted added rp : e_writable en = true -> fst (fst (note_replay cf en (k_info p) raw added rp)) = true.
Proof.
  intro W. unfold note_replay. destruct raw as [dg|]; [|reflexivity]. destruct (negb (cf_test cf) && negb added); [|reflexivity].
  destruct rp as [l f]. unfold add_replay. rewrite W. reflexivity.
Qed.

(** No command cycle of the list can be opened by this packet without being closable. *)
Definition cycles_ok (l : list stanza) : Prop :=
  forall a m d, In a l -> opens H G a data m -> asks a p fwd m d -> ~ unclosable a d.

Lemma loop_first : forall l k added rp cy eff l' rp' cy', e_writable en = true ->
  Forall (fun a => stanza_ok a /\ NoDup (a_open a)) l -> cycles_ok l ->
  stanza_loop H G cf en (k_info p) data fwd raw l k added rp cy = Ok (eff, l', rp', cy') ->
  (eff = [] /\ forall i a e, nth_error l i = Some a -> ~ lets H G cf (e_now en) p fwd data a (k + Z.of_nat i) e) \/
  exists i a e, nth_error l i = Some a /\ eff = [e] /\ lets H G cf (e_now en) p fwd data a (k + Z.of_nat i) e /\
    forall j a' e', (j < i)%nat -> nth_error l j = Some a' -> ~ lets H G cf (e_now en) p fwd data a' (k + Z.of_nat j) e'.
Proof.
  induction l as [|a r IH]; intros k added rp cy eff l' rp' cy' W F C E.
  - cbn [stanza_loop] in E. injection E as <- <- <- <-. left. split; auto. intros [|i] a e Q; discriminate.
  - rewrite loop_cons in E. inversion F as [|? ? [SO ND] F']; subst.
    destruct (step H G cf en (k_info p) data fwd raw a k added rp cy) as [[[[[[fl eff1] a1] ad1] rp1] cy1]|] eqn:ST; [|discriminate].
    destruct (step_sound _ _ _ _ _ _ _ _ _ _ _ SO ND ST) as [[-> ->]|(e & -> & LT & FL)].
    + pose proof (step_complete _ _ _ _ _ _ _ _ _ _ SO ND (noted added rp W) ST) as NL.
      destruct (stanza_loop H G cf en (k_info p) data fwd raw r (k + 1) ad1 rp1 cy1) as [[[[eff2 r2] rp2] cy2]|] eqn:L2; [|discriminate].
      injection E as <- <- <- <-.
      destruct (IH _ _ _ _ _ _ _ _ W F' (fun a m d I => C a m d (or_intror I)) L2) as [[-> N]|(i & a2 & e & Q & -> & LT & N)].
      * left. split; auto. intros [|i] a2 e Q.
        -- cbn in Q. injection Q as <-. change (Z.of_nat 0) with 0. rewrite Z.add_0_r. apply NL.
        -- cbn in Q. specialize (N i a2 e Q). replace (k + Z.of_nat (S i)) with (k + 1 + Z.of_nat i) by lia. auto.
      * right. exists (S i), a2, e. split; auto. split; auto.
        replace (k + Z.of_nat (S i)) with (k + 1 + Z.of_nat i) by lia. split; auto.
        intros [|j] a' e' LJ Q'.
        -- cbn in Q'. injection Q' as <-. change (Z.of_nat 0) with 0. rewrite Z.add_0_r. apply NL.
        -- cbn in Q'. replace (k + Z.of_nat (S j)) with (k + 1 + Z.of_nat j) by lia. apply N; auto. lia.
    + destruct FL as [->|(-> & m & d & O & AS & U)].
      * injection E as <- <- <- <-. right. exists 0%nat, a, e. split; auto. split; auto. change (Z.of_nat 0) with 0. rewrite Z.add_0_r.
        split; auto. intros j a' e' LJ. lia.
      * exfalso. apply (C a m d); auto. left. auto.
Qed.

Lemma loop_sound : forall l k added rp cy eff l' rp' cy',
  Forall (fun a => stanza_ok a /\ NoDup (a_open a)) l ->
  stanza_loop H G cf en (k_info p) data fwd raw l k added rp cy = Ok (eff, l', rp', cy') ->
  forall e, In e eff -> exists i a, nth_error l i = Some a /\ lets H G cf (e_now en) p fwd data a (k + Z.of_nat i) e.
Proof.
  induction l as [|a r IH]; intros k added rp cy eff l' rp' cy' F E e IN.
  - cbn [stanza_loop] in E. injection E as <- <- <- <-. destruct IN.
  - rewrite loop_cons in E. inversion F as [|? ? [SO ND] F']; subst.
    destruct (step H G cf en (k_info p) data fwd raw a k added rp cy) as [[[[[[fl eff1] a1] ad1] rp1] cy1]|] eqn:ST; [|discriminate].
    assert (ONE : In e eff1 -> lets H G cf (e_now en) p fwd data a (k + Z.of_nat 0) e).
    { change (Z.of_nat 0) with 0. rewrite Z.add_0_r.
      destruct (step_sound _ _ _ _ _ _ _ _ _ _ _ SO ND ST) as [[-> ->]|(e1 & -> & LT & FL)]; intro I; [destruct I|].
      destruct I as [<-|[]]. auto. }
    destruct fl.
    + destruct (stanza_loop H G cf en (k_info p) data fwd raw r (k + 1) ad1 rp1 cy1) as [[[[eff2 r2] rp2] cy2]|] eqn:L2; [|discriminate].
      injection E as <- <- <- <-. apply in_app_or in IN as [IN|IN].
      * exists 0%nat, a. auto.
      * destruct (IH _ _ _ _ _ _ _ _ F' L2 e IN) as (i & a2 & Q & LT). exists (S i), a2. split; auto.
        replace (k + Z.of_nat (S i)) with (k + 1 + Z.of_nat i) by lia. auto.
    + injection E as <- <- <- <-. exists 0%nat, a. auto.
Qed.
End Steps.
