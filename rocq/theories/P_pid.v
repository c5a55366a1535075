(** Proofs about the PID file *)
From Verif Require Import Bytes P_bytes M_base64 M_util M_message M_codec M_cycle S_text S_fw P_util P_codec P_access P_fw M_pid S_pid.
From Coq Require Import Init.Byte List ZArith Bool Lia.
Import ListNotations.
Open Scope Z_scope.

(** ** Reading the file *)
Lemma digits_no_nul d : all_digits d -> no_nul d.
Proof. intros D I. unfold all_digits in D. rewrite Forall_forall in D. specialize (D _ I). unfold digit in D. vm_compute in D. destruct D as [D _]. now apply D. Qed.
Lemma digits_integer d r : all_digits d -> d <> [] -> (r = [] \/ ~ digit (hd x00 r)) -> integer_text (d ++ r) (decimal d).
Proof.
  intros D N E. exists [], (d ++ r). split; [reflexivity|]. split; [constructor|]. destruct d as [|c d]; [contradiction|].
  assert (DC : digit c) by (inversion D; assumption). unfold digit in DC. cbn [hd app].
  split. { unfold blank. intros B. lia. }
  right. right. split; [intros ->; vm_compute in DC; destruct DC as [DC _]; now apply DC|]. split; [intros ->; vm_compute in DC; destruct DC as [DC _]; now apply DC|]. exists (c :: d), r. auto.
Qed.
Lemma read_named f p : pid p -> names f p -> read_pid f = p.
Proof.
  intros P (d & r & -> & (N & D & V & _) & L). unfold read_pid. unfold pid in P.
  destruct (d ++ r) as [|c t] eqn:E; [apply app_eq_nil in E; tauto|]. rewrite <- E. clear c t E.
  assert (X : exists r', cstr (ztake (PID_BUFLEN - 1) (d ++ r)) = d ++ r' /\ (r' = [] \/ ~ digit (hd x00 r'))).
  { change (PID_BUFLEN - 1) with 7. destruct L as [L|[L H]].
    - rewrite ztake_app by lia. rewrite cstr_id by auto using digits_no_nul. exists []. rewrite app_nil_r. auto.
    - destruct r as [|c r]; [discriminate|]. cbn in H. subst c.
      exists (x0a :: cstr (ztake (6 - zlen d) r)). split; [|right; cbn [hd]; unfold digit; change (bv x0a) with 10; lia].
      unfold ztake. rewrite firstn_app. rewrite firstn_all2 by (unfold zlen in L; lia).
      replace (Z.to_nat 7 - length d)%nat with (S (Z.to_nat (6 - zlen d))) by (unfold zlen in *; lia). cbn [firstn].
      assert (G : forall u v, no_nul u -> cstr (u ++ v) = u ++ cstr v).
      { unfold no_nul. induction u as [|b u IH]; intros v Hn; [reflexivity|]. cbn. cbn in Hn. destruct (beq b x00) eqn:B.
        - apply beq_eq in B. tauto.
        - rewrite IH by tauto. reflexivity. }
      rewrite G by auto using digits_no_nul. reflexivity. }
  destruct X as (r' & -> & R). destruct (strtol_wrapper (d ++ r') 0 8388608) as [n e] eqn:E.
  pose proof (digits_integer d r' D N R) as T. rewrite V in T.
  assert (Y : strtol_wrapper (d ++ r') 0 8388608 = (p, STRTOL_OK)) by (apply (strtol_wrapper_iff _ 0 8388608 p T); lia).
  rewrite Y in E. injection E as <- <-. reflexivity.
Qed.
(** Whatever was in the file before, it names the process that has written it. *)
Lemma written_names p f : pid p -> names (Some (overwrite (pid_text p) f)) p.
Proof.
  unfold pid. intros P. unfold pid_text, dec_i. destruct (p <? 0) eqn:E; [lia|]. pose proof (dec_num p ltac:(lia)) as M.
  assert (L : zlen (dec p) <= 7) by (apply (numeral_zlen p); auto; lia).
  unfold snprintf, PID_BUFLEN, overwrite. change (8 - 1) with 7.
  destruct (Z.eq_dec (zlen (dec p)) 7) as [E7|E7].
  - rewrite ztake_app by lia. exists (dec p), (zdrop (zlen (dec p)) f). auto.
  - rewrite ztake_all by (rewrite zlen_app; change (zlen [x0a]) with 1; lia).
    exists (dec p), (x0a :: zdrop (zlen (dec p ++ [x0a])) f). rewrite <- app_assoc. split; [reflexivity|]. split; [exact M|]. right. split; [lia|reflexivity].
Qed.
Lemma numeral_unique_digits p q d d' r r' : numeral p d -> numeral q d' -> d ++ r = d' ++ r' -> zlen d = zlen d' -> p = q.
Proof.
  intros (_ & _ & <- & _) (_ & _ & <- & _) E L. assert (d = d') as ->; [|reflexivity].
  assert (X : ztake (zlen d) (d ++ r) = d) by (apply ztake_app; reflexivity).
  assert (Y : ztake (zlen d) (d' ++ r') = d') by (apply ztake_app; exact L). rewrite E in X. congruence.
Qed.
Lemma names_unique f p q : pid p -> pid q -> names f p -> names f q -> p = q.
Proof. intros P Q A B. apply read_named in A; auto. apply read_named in B; auto. congruence. Qed.

(** ** The invariants *)
Definition may (g : goal) (a : place) : Prop :=
  match g, a with
  | Daemon _, (Begin | Forking | Opening | Locking | Looking | Writing | Running) => True
  | Status, (Opening | Locking | Looking | Writing) => True
  | (Stop | Restart), (Begin | Signalling _ | Waiting _ _) => True
  | _, _ => False
  end.
Definition sound (w : world) : Prop :=
  (forall p g a, w_proc w p = Some (Ours g a) -> may g a) /\
  (forall p x, w_proc w p = Some x -> pid p \/ x = Other) /\
  (forall p g, w_proc w p = Some (Ours g Locking) -> w_file w <> None) /\
  (forall p g, w_proc w p = Some (Ours g Writing) -> w_lock w = Some p /\ w_file w <> None) /\
  (forall p, w_lock w = Some p -> exists g a, w_proc w p = Some (Ours g a) /\
     (a = Writing \/ ((a = Running \/ a = Begin) /\ names (w_file w) p))).
Lemma put_same p x f : put p x f p = x.
Proof. unfold put. now rewrite Z.eqb_refl. Qed.
Lemma put_other p x f q : q <> p -> put p x f q = f q.
Proof. unfold put. intros H. apply Z.eqb_neq in H. now rewrite H. Qed.
Lemma put_inv p x f q y : put p x f q = y -> (q = p /\ x = y) \/ (q <> p /\ f q = y).
Proof. unfold put. destruct (q =? p) eqn:E; [apply Z.eqb_eq in E|apply Z.eqb_neq in E]; auto. Qed.
Lemma unlock_inv p l h : unlock p l = Some h -> h <> p /\ l = Some h.
Proof. unfold unlock. destruct l as [k|]; [|discriminate]. destruct (k =? p) eqn:E; [discriminate|]. intros [= <-]. apply Z.eqb_neq in E. auto. Qed.
Lemma unlock_keeps p l h : h <> p -> l = Some h -> unlock p l = Some h.
Proof. intros N ->. cbn. apply Z.eqb_neq in N. now rewrite N. Qed.

Lemma sound_ends p w : sound w -> sound (ends p w).
Proof.
  intros (A & B & C & D & E). unfold sound, ends; cbn [w_file w_lock w_proc]. repeat split.
  - intros q g a H. apply put_inv in H. destruct H as [[_ H]|[_ H]]; [discriminate|eauto].
  - intros q x H. apply put_inv in H. destruct H as [[_ H]|[_ H]]; [discriminate|eauto].
  - intros q g H. apply put_inv in H. destruct H as [[_ H]|[_ H]]; [discriminate|eauto].
  - apply put_inv in H. destruct H as [[_ H]|[N H]]; [discriminate|]. apply unlock_keeps; auto. apply (D _ _ H).
  - apply put_inv in H. destruct H as [[_ H]|[N H]]; [discriminate|]. apply (D _ _ H).
  - intros q H. apply unlock_inv in H. destruct H as [N H]. destruct (E _ H) as (g & a & X & Y). exists g, a. rewrite put_other by auto. auto.
Qed.
Lemma sound_see x w : sound w -> sound (see x w).
Proof. exact (fun H => H). Qed.
Lemma sound_closed p w : (forall g, w_proc w p <> Some (Ours g Writing)) -> sound w -> sound (closed p w).
Proof.
  intros W (A & B & C & D & E). unfold sound, closed; cbn [w_file w_lock w_proc]. repeat split; eauto.
  - destruct (D _ _ H) as [L F]. apply unlock_keeps; auto. intros ->. apply (W g). exact H.
  - apply (D _ _ H).
  - intros q H. apply unlock_inv in H. apply E, H.
Qed.
(** A process that does not hold the lock goes somewhere *)
Lemma sound_at p g a w : sound w -> may g a -> pid p -> (a = Locking -> w_file w <> None) -> a <> Writing -> w_lock w <> Some p ->
  sound (at_place p g a w).
Proof.
  intros (A & B & C & D & E) M P F NW NL. unfold sound, at_place; cbn [w_file w_lock w_proc]. repeat split.
  - intros q g' a' H. apply put_inv in H. destruct H as [[_ H]|[_ H]]; [|eauto]. injection H as <- <-. exact M.
  - intros q x H. apply put_inv in H. destruct H as [[-> _]|[_ H]]; eauto.
  - intros q g' H. apply put_inv in H. destruct H as [[_ H]|[_ H]]; [|eauto]. injection H as _ H. auto.
  - apply put_inv in H. destruct H as [[_ H]|[N H]]; [injection H as _ H; contradiction|]. apply (D _ _ H).
  - apply put_inv in H. destruct H as [[_ H]|[N H]]; [injection H as _ H; contradiction|]. apply (D _ _ H).
  - intros q H. destruct (E _ H) as (g' & a' & X & Y). exists g', a'. rewrite put_other; auto. intros ->. contradiction.
Qed.
Lemma sound_init w : idle w -> sound w.
Proof.
  intros [L N]. repeat split.
  - intros p g a H. now apply N in H.
  - intros p [g a|] H; [now apply N in H|auto].
  - intros p g H. now apply N in H.
  - now apply N in H.
  - now apply N in H.
  - intros p H. congruence.
Qed.
Lemma free_lock p w : sound w -> w_proc w p = None -> w_lock w <> Some p.
Proof. intros (_ & _ & _ & _ & E) N H. destruct (E _ H) as (g & a & X & _). congruence. Qed.
Lemma not_holder p g a w : sound w -> w_proc w p = Some (Ours g a) -> a <> Writing -> a <> Running -> a <> Begin -> w_lock w <> Some p.
Proof. intros (_ & _ & _ & _ & E) N A B C H. destruct (E _ H) as (g' & a' & X & Y). rewrite N in X. injection X as <- <-. tauto. Qed.
Lemma closed_free p w : w_lock (closed p w) <> Some p.
Proof. cbn. intros H. apply unlock_inv in H. tauto. Qed.

Ltac stale H := intros ? H; rewrite H in *; discriminate.
Lemma sound_step e w w' : sound w -> proper w e -> happens e w = Some w' -> sound w'.
Proof.
  intros S0 PR H. destruct e as [p x|p q|p|p]; cbn [happens] in H.
  - destruct (w_proc w p) eqn:EP; [discriminate|]. destruct (new_proc x) eqn:NP; [|discriminate]. injection H as <-. cbn [proper] in PR.
    pose proof (free_lock _ _ S0 EP) as NL. destruct x as [g a|].
    + change (sound (at_place p g a w)). assert (M : may g a /\ a <> Writing /\ a <> Locking) by (destruct g, a; try discriminate NP; cbn; repeat split; discriminate).
      destruct M as (M & M1 & M2). apply sound_at; auto. all: intros; contradiction.
    + destruct S0 as (A & B & C & D & E). unfold sound; cbn [w_file w_lock w_proc]. repeat split.
      * intros r g a H. apply put_inv in H. destruct H as [[_ H]|[_ H]]; [discriminate|eauto].
      * intros r y H. apply put_inv in H. destruct H as [[-> H]|[_ H]]; [injection H as <-; auto|eauto].
      * intros r g H. apply put_inv in H. destruct H as [[_ H]|[_ H]]; [discriminate|eauto].
      * apply put_inv in H. destruct H as [[_ H]|[_ H]]; [discriminate|]. apply (D _ _ H).
      * apply put_inv in H. destruct H as [[_ H]|[_ H]]; [discriminate|]. apply (D _ _ H).
      * intros r H. destruct (E _ H) as (g & a & X & Y). exists g, a. rewrite put_other; auto. intros ->. contradiction.
  - unfold next in H. destruct (w_proc w p) as [[g a|]|] eqn:EP; try discriminate.
    destruct (proj1 (proj2 S0) _ _ EP) as [P|]; [|discriminate]. pose proof (proj1 S0 _ _ _ EP) as M. cbn [proper] in PR.
    destruct a as [| | | | | | |r|r n].
    + assert (SC : sound (closed p w)) by (apply sound_closed; auto; congruence). pose proof (closed_free p w) as CF.
      destruct g as [fg| | |]; cbn in M; try contradiction; injection H as <-.
      * destruct (read_pid (w_file w) =? p); [|destruct fg]; apply sound_at; cbn; auto; discriminate.
      * destruct (read_pid (w_file w) >? 0); [apply sound_at; cbn; auto; discriminate|now apply sound_ends].
      * destruct (read_pid (w_file w) >? 0); [apply sound_at; cbn; auto; discriminate|now apply sound_ends].
    + destruct (w_proc w q) eqn:EQ; [discriminate|]. destruct (q =? p) eqn:QP; [discriminate|]. injection H as <-.
      assert (NL : w_lock (ends p w) <> Some q) by (cbn; intros L; apply unlock_inv in L; destruct L as [_ L]; apply (free_lock _ _ S0 EQ L)).
      apply sound_at; auto using sound_ends; try discriminate. destruct g; cbn in *; auto.
    + injection H as <-. apply sound_at; auto; try discriminate; cbn [w_file w_lock].
      * destruct S0 as (A & B & C & D & E). unfold sound; cbn [w_file w_lock w_proc]. repeat split; eauto.
        -- intros r g' H. destruct (w_file w); discriminate.
        -- apply (D _ _ H).
        -- destruct (w_file w); discriminate.
        -- intros r L. destruct (E _ L) as (g' & a' & X & Y). exists g', a'. split; [exact X|]. destruct Y as [Y|[Y Z]]; [auto|]. right. split; [exact Y|].
           destruct Z as (d & t & F & Z). rewrite F. exists d, t. auto.
      * intros _. destruct (w_file w); discriminate.
      * apply (not_holder _ _ _ _ S0 EP); discriminate.
    + assert (FN := proj1 (proj2 (proj2 S0)) _ _ EP). destruct (w_lock w) as [h|] eqn:EL.
      * destruct (h =? p) eqn:HP. { apply Z.eqb_eq in HP. subst h. exfalso. eapply (not_holder _ _ _ _ S0 EP); eauto; discriminate. }
        injection H as <-. apply sound_at; auto; try discriminate. rewrite EL. intros [= ->]. rewrite Z.eqb_refl in HP. discriminate.
      * injection H as <-. destruct S0 as (A & B & C & D & E). unfold sound, at_place; cbn [w_file w_lock w_proc]. repeat split.
        -- intros r g' a' H. apply put_inv in H. destruct H as [[_ H]|[_ H]]; [|eauto]. injection H as <- <-. destruct g; cbn in *; auto.
        -- intros r x H. apply put_inv in H. destruct H as [[-> _]|[_ H]]; eauto.
        -- intros r g' H. apply put_inv in H. destruct H as [[_ H]|[_ H]]; [discriminate|eauto].
        -- apply put_inv in H. destruct H as [[-> _]|[_ H]]; [reflexivity|]. destruct (D _ _ H). congruence.
        -- exact FN.
        -- intros r [= <-]. exists g, Writing. rewrite put_same. auto.
    + injection H as <-. assert (SC : sound (closed p w)) by (apply sound_closed; auto; congruence). pose proof (closed_free p w) as CF.
      unfold after_write. destruct g as [fg| | |]; cbn in M; try contradiction.
      * destruct (_ >? 0); [now apply sound_ends|]. apply sound_at; cbn; auto; discriminate.
      * apply sound_ends, sound_see, SC.
    + destruct (proj1 (proj2 (proj2 (proj2 S0))) _ _ EP) as [HL FN]. injection H as <-.
      destruct (w_file w) as [f|] eqn:EF; [|contradiction].
      assert (ON : forall r g' a', r <> p -> w_proc w r = Some (Ours g' a') -> w_lock w <> Some r) by (intros; congruence).
      assert (NA : names (Some (overwrite (pid_text p) f)) p) by (apply written_names; exact P).
      destruct S0 as (A & B & C & D & E).
      assert (K : forall a', a' <> Locking -> a' <> Writing -> may g a' -> (a' = Running \/ a' = Begin) ->
        sound (at_place p g a' (mkWorld (Some (overwrite (pid_text p) f)) (w_lock w) (w_proc w) (w_seen w)))).
      { intros a' N1 N2 MA RB. unfold sound, at_place; cbn [w_file w_lock w_proc]. repeat split.
        - intros r g' a'' H. apply put_inv in H. destruct H as [[_ H]|[_ H]]; [|eauto]. injection H as <- <-. exact MA.
        - intros r x H. apply put_inv in H. destruct H as [[-> _]|[_ H]]; eauto.
        - intros; discriminate.
        - apply put_inv in H. destruct H as [[_ H]|[NE H]]; [injection H as _ H; contradiction|]. apply (D _ _ H).
        - discriminate.
        - intros r L. rewrite HL in L. injection L as <-. exists g, a'. rewrite put_same. auto. }
      unfold after_write. destruct g as [fg| | |]; cbn in M; try contradiction.
      * apply K; cbn; auto; discriminate.
      * unfold sound, ends, see; cbn [w_file w_lock w_proc]. repeat split.
        -- intros r g' a'' H. apply put_inv in H. destruct H as [[_ H]|[_ H]]; [discriminate|eauto].
        -- intros r x H. apply put_inv in H. destruct H as [[_ H]|[_ H]]; [discriminate|eauto].
        -- intros; discriminate.
        -- apply put_inv in H. destruct H as [[_ H]|[NE H]]; [discriminate|]. destruct (D _ _ H) as [HL' _]. congruence.
        -- discriminate.
        -- intros r L. apply unlock_inv in L. destruct L. congruence.
    + discriminate.
    + assert (NL : w_lock w <> Some p) by (apply (not_holder _ _ _ _ S0 EP); discriminate).
      destruct g as [fg| | |]; cbn in M; try contradiction; injection H as <-; [|now apply sound_ends].
      apply sound_at; auto; try discriminate; cbn; auto.
    + assert (NL : w_lock w <> Some p) by (apply (not_holder _ _ _ _ S0 EP); discriminate).
      destruct (n <? 5)%nat; injection H as <-; [|do 2 apply sound_ends; exact S0]. destruct (w_proc w r); [|now apply sound_ends].
      apply sound_at; auto; try discriminate.
  - destruct (w_proc w p) as [[g []|]|] eqn:EP; try discriminate. injection H as <-.
    destruct (proj1 (proj2 S0) _ _ EP) as [P|]; [|discriminate]. pose proof (proj1 S0 _ _ _ EP) as M. destruct g; cbn in M; try contradiction.
    destruct S0 as (A & B & C & D & E). unfold sound, at_place; cbn [w_file w_lock w_proc]. repeat split.
    + intros r g' a' H. apply put_inv in H. destruct H as [[_ H]|[_ H]]; [|eauto]. injection H as <- <-. exact I.
    + intros r x H. apply put_inv in H. destruct H as [[-> _]|[_ H]]; eauto.
    + intros r g' H. apply put_inv in H. destruct H as [[_ H]|[_ H]]; [discriminate|eauto].
    + apply put_inv in H. destruct H as [[_ H]|[NE H]]; [discriminate|]. apply (D _ _ H).
    + apply put_inv in H. destruct H as [[_ H]|[NE H]]; [discriminate|]. apply (D _ _ H).
    + intros r L. destruct (E _ L) as (g' & a' & X & Y). destruct (Z.eq_dec r p) as [->|NE].
      * exists (Daemon fg), Begin. rewrite put_same. rewrite EP in X. injection X as <- <-. split; [reflexivity|]. destruct Y as [Y|[_ Y]]; [discriminate|]. auto.
      * exists g', a'. rewrite put_other by auto. auto.
  - destruct (w_proc w p); [|discriminate]. injection H as <-. now apply sound_ends.
Qed.
Lemma sound_history (P : world -> event -> Prop) l w w' : (forall w e, P w e -> proper w e) -> sound w -> history P l w w' -> sound w'.
Proof. intros I S0 H. induction H; eauto using sound_step. Qed.

(** ** Without SIGHUP *)
Definition settled (w : world) : Prop :=
  sound w /\ (exists q, pid q /\ names (w_file w) q) /\
  forall p g, w_proc w p = Some (Ours g Running) -> w_lock w = Some p.
Lemma settled_step e w w' : settled w -> calm w e -> happens e w = Some w' -> settled w'.
Proof.
  intros (S0 & (q0 & Q0 & N0) & R) [PR CA] H. pose proof (sound_step _ _ _ S0 PR H) as S1. split; [exact S1|].
  pose proof (read_named _ _ Q0 N0) as RD.
  assert (KE : forall p w1, w_file w1 = w_file w -> (forall r g, w_proc w1 r = Some (Ours g Running) -> w_lock w1 = Some r) ->
    (exists q, pid q /\ names (w_file (ends p w1)) q) /\ forall r g, w_proc (ends p w1) r = Some (Ours g Running) -> w_lock (ends p w1) = Some r).
  { intros p w1 F K. cbn. rewrite F. split; [eauto|]. intros r g X. apply put_inv in X. destruct X as [[_ X]|[NE X]]; [discriminate|]. apply unlock_keeps; eauto. }
  assert (KA : forall p g a w1, a <> Running -> w_file w1 = w_file w -> (forall r g, w_proc w1 r = Some (Ours g Running) -> w_lock w1 = Some r) ->
    (exists q, pid q /\ names (w_file (at_place p g a w1)) q) /\ forall r g', w_proc (at_place p g a w1) r = Some (Ours g' Running) -> w_lock (at_place p g a w1) = Some r).
  { intros p g a w1 NA F K. cbn. rewrite F. split; [eauto|]. intros r g' X. apply put_inv in X. destruct X as [[_ X]|[NE X]]; [injection X as _ X; contradiction|]. eauto. }
  assert (KC : forall p g a, w_proc w p = Some (Ours g a) -> a <> Running -> forall r g, w_proc (closed p w) r = Some (Ours g Running) -> w_lock (closed p w) = Some r).
  { intros p g a EP NA r g' X. cbn in *. apply unlock_keeps; [|eauto]. intros ->. congruence. }
  destruct e as [p x|p q|p|p]; cbn [happens] in H.
  - destruct (w_proc w p) eqn:EP; [discriminate|]. destruct (new_proc x) eqn:NP; [|discriminate]. injection H as <-. cbn. split; [eauto|].
    intros r g X. apply put_inv in X. destruct X as [[_ X]|[NE X]]; [|eauto]. injection X as ->. destruct g; discriminate NP.
  - unfold next in H. destruct (w_proc w p) as [[g a|]|] eqn:EP; try discriminate.
    destruct (proj1 (proj2 S0) _ _ EP) as [P|]; [|discriminate]. pose proof (proj1 S0 _ _ _ EP) as M.
    destruct a as [| | | | | | |r|r n].
    + destruct g as [fg| | |]; cbn in M; try contradiction; injection H as <-.
      * destruct (read_pid (w_file w) =? p) eqn:E. { apply Z.eqb_eq in E. exfalso. apply (CA fg eq_refl). rewrite RD in E. now subst q0. }
        destruct fg; apply KA; try discriminate; try reflexivity; eapply KC; eauto; discriminate.
      * destruct (read_pid (w_file w) >? 0); [apply KA; try discriminate; try reflexivity|apply KE; try reflexivity]; eapply KC; eauto; discriminate.
      * destruct (read_pid (w_file w) >? 0); [apply KA; try discriminate; try reflexivity|apply KE; try reflexivity]; eapply KC; eauto; discriminate.
    + destruct (w_proc w q) eqn:EQ; [discriminate|]. destruct (q =? p); [discriminate|]. injection H as <-. apply KA; try discriminate; [reflexivity|]. apply (KE p w); auto.
    + injection H as <-. destruct N0 as (d & t & F & N0). rewrite F. apply KA; try discriminate; cbn; rewrite ?F; auto.
    + destruct (w_lock w) as [h|] eqn:EL.
      * destruct (h =? p); injection H as <-; apply KA; try discriminate; auto; intros; rewrite EL; eauto.
      * injection H as <-. apply KA; try discriminate; [reflexivity|]. cbn. intros r g' X. exfalso. specialize (R _ _ X). congruence.
    + injection H as <-. unfold after_write. rewrite RD. destruct (q0 =? 0) eqn:E; [unfold pid in Q0; lia|]. clear E. destruct (q0 >? 0) eqn:E; [|unfold pid in Q0; lia].
      destruct g as [fg| | |]; cbn in M; try contradiction; apply KE; try reflexivity; intros r g' X; eapply KC; eauto; discriminate.
    + destruct (proj1 (proj2 (proj2 (proj2 S0))) _ _ EP) as [HL FN]. destruct (w_file w) as [f|] eqn:EF; [|contradiction]. injection H as <-.
      assert (NA : names (Some (overwrite (pid_text p) f)) p) by (apply written_names; exact P).
      unfold after_write. destruct g as [fg| | |]; cbn in M; try contradiction; cbn.
      * split; [eauto|]. intros r g' X. apply put_inv in X. destruct X as [[-> _]|[NE X]]; [exact HL|eauto].
      * split; [eauto|]. intros r g' X. apply put_inv in X. destruct X as [[_ X]|[NE X]]; [discriminate|]. apply unlock_keeps; eauto.
    + discriminate.
    + destruct g as [fg| | |]; cbn in M; try contradiction; injection H as <-; [apply KA; try discriminate; auto|apply KE; auto].
    + destruct (n <? 5)%nat; injection H as <-.
      * destruct (w_proc w r); [apply KA; try discriminate; auto|apply KE; auto].
      * apply KE; [reflexivity|]. apply (KE r (see (Sent r KILL (w_proc w r)) w)); auto.
  - contradiction.
  - destruct (w_proc w p); [|discriminate]. injection H as <-. apply KE; auto.
Qed.
Lemma settled_history l w w' : settled w -> history calm l w w' -> settled w'.
Proof. intros S0 H. induction H; eauto using settled_step. Qed.
Lemma settled_init w q : idle w -> pid q -> names (w_file w) q -> settled w.
Proof. intros I Q N. split; [now apply sound_init|]. split; [eauto|]. intros p g H. exfalso. now apply (proj2 I) in H. Qed.
Lemma running_named p w : settled w -> running p w -> w_lock w = Some p /\ names (w_file w) p /\ read_pid (w_file w) = p.
Proof.
  intros (S0 & _ & R) [fg H]. pose proof (R _ _ H) as L. split; [exact L|].
  destruct S0 as (A & B & C & D & E). destruct (E _ L) as (g & a & X & Y). rewrite H in X. injection X as <- <-. destruct Y as [Y|[_ Y]]; [discriminate|].
  split; [exact Y|]. apply read_named; [|exact Y]. destruct (B _ _ H); [assumption|discriminate].
Qed.
