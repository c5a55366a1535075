(** The invariant of the turns of the daemon. *)
From Verif Require Import Bytes M_util M_message M_codec M_cipher M_ctx M_access M_replay M_cycle M_incoming M_packet M_fw M_fwinit M_daemon
  S_base64 S_text S_codec S_cipher S_ctx S_access S_replay S_cycle S_incoming S_fw S_fwinit S_daemon
  P_bytes P_util P_util2 P_access P_replay P_incoming P_incoming2 P_incoming3 P_incoming4 P_incoming5 P_incoming8
  P_fw P_fw2 P_fw3 P_fw4 P_fw5 P_fw6 P_fw7 P_fw8 P_fw9 P_fw10 P_fwinit P_fwinit2 P_daemon P_daemon2.
From Coq Require Import Init.Byte List ZArith Bool Lia.
Import ListNotations.
Open Scope Z_scope.

(** The rules that are new satisfy [P]. *)
Definition added (P : bytes -> bytes -> rule -> Prop) (fw fw' : firewall) : Prop :=
  forall t n r, was fw' t n r -> was fw t n r \/ P t n r.
Lemma added_refl P fw : added P fw fw. Proof. intros t n r X. now left. Qed.
Lemma added_trans P a b c : added P a b -> added P b c -> added P a c.
Proof. intros X Y t n r W. destruct (Y t n r W) as [V|V]; [apply X; exact V|now right]. Qed.
Lemma added_impl (P Q : bytes -> bytes -> rule -> Prop) fw fw' : (forall t n r, P t n r -> Q t n r) -> added P fw fw' -> added Q fw fw'.
Proof. intros I X t n r W. destruct (X t n r W); auto. Qed.
Lemma fewer_added P fw fw' : fewer fw fw' -> added P fw fw'.
Proof. intros X t n r W. left. apply X, W. Qed.
Lemma grown_added new P fw fw' : grown new P fw fw' -> added P fw fw'.
Proof.
  intros X t n r (rs & E & I). specialize (X t n). destruct (fw t n) as [rs0|] eqn:F.
  - destruct X as (rs' & E' & D). rewrite E in E'. injection E' as <-. clear E. assert (Y : In r rs0 \/ P t n r).
    { clear F. induction D; [destruct I| |].
      - destruct I as [<-|I]; auto.
      - destruct I as [<-|I]; [left; now left|]. destruct (IHD I); auto. left. now right. }
    destruct Y; auto. left. exists rs0. auto.
  - destruct X as [X|(_ & rs' & E' & FA)]; [congruence|]. rewrite E in E'. injection E' as <-. right. rewrite Forall_forall in FA. auto.
Qed.

(** Only the names of the chains matter. *)
Lemma chain_names c c' t n : same_names c c' -> is_chain c' t n -> is_chain c t n.
Proof. intros (E1 & E2 & E3 & E4 & E5). unfold is_chain. now rewrite E2, E5. Qed.
Lemma rule_names fc resolve cs cs' a d now t n r : Forall2 same_names cs cs' -> rule_for fc resolve cs' a d now t n r -> rule_for fc resolve cs a d now t n r.
Proof.
  intros N (pl & RQ & PM & X). exists pl. split; [exact RQ|]. split; [exact PM|]. pose proof (fun j => nth_names j _ _ N) as S.
  assert (C : forall j, is_chain (chain_at j cs') t n -> is_chain (chain_at j cs) t n) by (intros j; apply chain_names, S).
  assert (T : forall j, c_target (chain_at j cs') = c_target (chain_at j cs)) by (intros j; apply S).
  destruct X as [(WN & p & q & I & X)|(WN & p & q & more & ip & to & i & how & E & NT & SH & X)]; [left|right].
  - split; [exact WN|]. exists p, q. split; [exact I|]. rewrite !T in X. destruct X as [(X & Y)|(X & Y)]; [left|right]; auto.
  - split; [exact WN|]. exists p, q, more, ip, to, i, how. split; [exact E|]. split; [exact NT|]. split; [exact SH|]. rewrite !T in X.
    destruct X as [(U & X & Y)|[(U & X & Y)|[(U & X & Y)|(U & X & Y)]]]; [left|right; left|right; right; left|right; right; right]; auto.
Qed.
Lemma authorizes_names H G cf fc resolve cs cs' x t n r e : Forall2 same_names cs cs' ->
  authorizes H G cf fc resolve cs' x t n r e -> authorizes H G cf fc resolve cs x t n r e.
Proof.
  intros N. destruct x as [[[acc en] p] later]. intros (data & fwd & i & a & d & X1 & X2 & X3 & X4 & X5 & X6 & X7). exists data, fwd, i, a, d.
  repeat (split; [assumption|]). eapply rule_names; eauto.
Qed.
Lemma names_sym cs cs' : Forall2 same_names cs cs' -> Forall2 same_names cs' cs.
Proof. induction 1 as [|c c' l l' (E1 & E2 & E3 & E4 & E5) F IH]; constructor; auto. repeat split; auto. Qed.
Lemma jumps_names cs cs' t n r : Forall2 same_names cs cs' -> jumps cs' t n r -> jumps cs t n r.
Proof. intros N J. apply jumpb_iff. rewrite <- (names_jump cs cs') by exact N. now apply jumpb_iff. Qed.

Lemma usable_config acc : Forall usable acc -> config_ok acc.
Proof. apply Forall_impl. intros a (X & Y & _). auto. Qed.
Lemma firewall_names fc cs cs' acc : Forall2 same_names cs cs' -> firewall_ok fc cs acc -> firewall_ok fc cs' acc.
Proof.
  intros N (F & S & U & V). split; [eapply names_fitting; eauto|]. split; [exact S|]. split; [eapply used_names; eauto|].
  intros a I X. destruct (V a I X). split; eapply used_names; eauto.
Qed.
Lemma turn_names fc cs cs' x : Forall2 same_names cs cs' -> turn_ok fc cs x -> turn_ok fc cs' x.
Proof. intros N. destruct x; auto. intros (X & Y). split; [exact X|eapply firewall_names; eauto]. Qed.

Section Turns.
Variable K : iptables.
Hypothesis KO : iptables_ok K.
Variable H : hashes.
Hypothesis HO : hashes_ok H.
Variable G : gpg.
Variable cf : conf.
Variable fc : fwconf.
Variable resolve : bytes -> option bytes.
Hypothesis RO : resolves resolve.
Notation run := (run_iptables K).

Definition origin (cs : list chain) (log : list arrival) (t n : bytes) (r : rule) : Prop :=
  jumps cs t n r \/ exists x e, In x log /\ authorizes H G cf fc resolve cs x t n r e.
Lemma origin_names cs cs' log t n r : Forall2 same_names cs cs' -> origin cs' log t n r -> origin cs log t n r.
Proof.
  intros N [J|(x & e & I & A)]; [left; eapply jumps_names; eauto|right]. exists x, e. split; auto. eapply authorizes_names; eauto.
Qed.
Lemma origin_incl cs l l' t n r : incl l l' -> origin cs l t n r -> origin cs l' t n r.
Proof. intros I [J|(x & e & X & A)]; [now left|right; exists x, e; split; auto]. Qed.

Lemma grants_added en p later st st' all : incoming_spa H G cf en p st = Ok (all, st') -> packet_ok p -> 0 <= later < 2147483648 -> Forall usable (st_acc st) ->
  forall effs, incl effs all -> forall cs (fw : firewall) fs cs' fw' fs', firewall_ok fc cs (st_acc st) ->
  grants machine run fc resolve (st_acc st) later effs (cs, (fw, fs)) = Ok (cs', (fw', fs')) ->
  Forall2 same_names cs cs' /\ rest cs fw fw' /\ added (origin cs [(st_acc st, en, p, later)]) fw fw'.
Proof.
  intros IS PO TM UA. induction effs as [|e effs IH]; intros IN cs fw fs cs' fw' fs' FO Q; cbn [grants] in Q.
  - injection Q as <- <- <-. split; [apply names_refl|]. split; [apply rest_refl|apply added_refl].
  - assert (IN' : incl effs all) by (intros x X; apply IN; now right). destruct e as [k d|k cmd who|k cmd]; [|eapply IH; eauto|eapply IH; eauto].
    destruct (process_spa_request machine run fc resolve (nat_of (st_acc st) k) d later (cs, (fw, fs))) as [[cs1 [fw1 fs1]]|] eqn:R; [|discriminate]. cbn [bind] in Q.
    destruct (authorized H G cf en p st all st' (Grant k d) HO PO (usable_config _ UA) IS (IN _ (or_introl eq_refl))) as (data & fwd & i & a & C & D & FW & NE & LE).
    assert (EK : k = 1 + Z.of_nat i) by (destruct LE as (_ & _ & m & d' & _ & _ & _ & _ & MY); apply MY). subst k.
    assert (UU : usable a) by (rewrite Forall_forall in UA; apply UA; eapply nth_error_In; eauto).
    pose proof (granted_fit _ _ _ _ _ _ _ _ _ _ _ UU FW LE) as FR.
    assert (EN : nat_of (st_acc st) (1 + Z.of_nat i) = a_nat a). { unfold nat_of. replace (Z.to_nat (1 + Z.of_nat i - 1)) with i by lia. now rewrite NE. }
    rewrite EN in R. pose proof FO as (F1 & F2 & F3 & F4).
    destruct (request_added K KO fc resolve RO cs a d later UU F1 F2 F3 (F4 a (nth_error_In _ _ NE)) FR TM fw fs cs1 fw1 fs1 R) as (N & GR).
    destruct (IH IN' cs1 fw1 fs1 cs' fw' fs' (firewall_names _ _ _ _ N FO) Q) as (N2 & RS & AD). split; [eapply names_trans; eauto|]. split.
    + intros t n. transitivity (bare cs fw1 t n).
      * revert t n. change (rest cs fw fw1). eapply rest_grown; [| |exact GR].
        -- intros t n (j & X). eapply is_own; eauto.
        -- intros t n r [X|X]; [now right|left].
           destruct X as (pl & _ & _ & [(_ & p0 & q0 & _ & [(X & _)|(X & _)])|(_ & p0 & q0 & more & ip & to & i0 & how & _ & _ & _ & X)]).
           ++ eapply is_own; eauto.
           ++ eapply is_own; eauto.
           ++ destruct X as [(_ & X & _)|[(_ & X & _)|[(_ & X & _)|(_ & X & _)]]]; eapply is_own; eauto.
      * rewrite <- (names_bare cs cs1), <- (names_bare cs cs1 fw') by exact N. apply RS.
    + eapply added_trans.
      * eapply added_impl; [|eapply grown_added; exact GR]. intros t n r [J|X]; [now left|right].
        exists (st_acc st, en, p, later), (later + d_timeout d). split; [now left|]. exists data, fwd, i, a, d. auto 8.
      * eapply added_impl; [|exact AD]. intros t n r. now apply origin_names.
Qed.

Lemma stanzas_kept en p st effs st' cs : incoming_spa H G cf en p st = Ok (effs, st') -> Forall usable (st_acc st) -> firewall_ok fc cs (st_acc st) ->
  Forall usable (st_acc st') /\ firewall_ok fc cs (st_acc st').
Proof.
  intros E U (F & S & V & W). pose proof (incoming_stanzas _ _ _ _ _ _ _ _ E) as FA. split.
  - clear - U FA. induction FA as [|a a' l l' Q FA IH]; [constructor|]. inversion_clear U. constructor; auto. destruct Q as [->|(-> & _)]; auto.
  - split; [exact F|]. split; [exact S|]. split; [exact V|]. clear - W FA. induction FA as [|a a' l l' Q FA IH]; [intros ? []|]. intros x [<-|I].
    + destruct Q as [->|(-> & _)]; apply (W a); now left.
    + apply IH; auto. intros y Y. apply W. now right.
Qed.

Lemma take_spec x st cs (fw : firewall) fs log st' cs' fw' fs' : turn_ok fc cs x -> Forall usable (st_acc st) -> firewall_ok fc cs (st_acc st) ->
  take machine run H G cf fc resolve x (st, (cs, (fw, fs))) = Ok (log, (st', (cs', (fw', fs')))) ->
  Forall2 same_names cs cs' /\ rest cs fw fw' /\ added (origin cs log) fw fw' /\ Forall usable (st_acc st') /\ firewall_ok fc cs (st_acc st').
Proof.
  intros TO UA FO Q. pose proof FO as (F & _). destruct x as [en p later|all now| | |acc]; cbn [take] in Q.
  - destruct TO as (PO & TM). destruct (incoming_spa H G cf en p st) as [[effs st1]|] eqn:IS; [|discriminate]. cbn [bind] in Q.
    destruct (grants machine run fc resolve (st_acc st) later effs (cs, (fw, fs))) as [[cs1 [fw1 fs1]]|] eqn:GR; [|discriminate]. cbn [bind] in Q.
    injection Q as <- <- <- <- <-. destruct (grants_added en p later st st1 effs IS PO TM UA effs (incl_refl _) cs fw fs cs1 fw1 fs1 FO GR) as (N & R & A).
    split; [exact N|]. split; [exact R|]. split; [exact A|]. eapply stanzas_kept; eauto.
  - destruct (check_firewall_rules machine run fc all now (cs, (fw, fs))) as [[cs1 [fw1 fs1]]|] eqn:E; [|discriminate]. cbn [bind] in Q. injection Q as <- <- <- <- <-.
    unfold check_firewall_rules in E. cbn [fst snd] in E. destruct (pass_rest K fc cs all now cs (fun _ z => z) F _ _ _ _ _ _ E) as [R N].
    destruct (pass_fewer K fc cs all now cs (fun _ z => z) F _ _ _ _ _ _ E) as [L _]. split; [exact N|]. split; [exact R|]. split; [now apply fewer_added|auto].
  - cbn [fst snd] in Q. destruct (make_rest K KO fc cs cs (fun _ z => z) F fw fs) as (e & fw1 & fs1 & R & RS). rewrite R in Q. cbn [bind] in Q. injection Q as <- <- <- <- <-.
    split; [apply names_refl|]. split; [exact RS|]. split; [|auto]. revert R. clear RS.
    assert (X : forall l (g : firewall) gs e' g' gs', (forall c, In c l -> In c cs) -> create_fw_chains machine run fc l (g, gs) = Ok (e', (g', gs')) -> added (origin cs []) g g').
    { induction l as [|c l IH]; intros g gs e' g' gs' S R; cbn [create_fw_chains] in R; [injection R as _ <- _; apply added_refl|].
      destruct (inuse c) eqn:U.
      - pose proof (proj1 (inuse_iff c) U) as UU. pose proof (fitting_in _ _ _ F (S c (or_introl eq_refl)) UU) as NF.
        unfold inuse in U. apply negb_true_iff in U. rewrite U in R.
        destruct (mk_chain_spec K KO fc c NF g gs) as (e1 & g1 & gs1 & R1 & GR & _). rewrite R1 in R. cbn [bind] in R.
        destruct (create_fw_chains machine run fc l (g1, gs1)) as [[e2 [g2 gs2]]|] eqn:R2; [|discriminate]. cbn [bind] in R. injection R as _ <- _.
        eapply added_trans; [|eapply IH; [|exact R2]; intros y Y; apply S; now right].
        eapply added_impl; [|eapply grown_added; exact GR]. intros t n r (-> & -> & ->). left. exists c. repeat split; auto. apply S. now left.
      - unfold inuse in U. apply negb_false_iff in U. rewrite U in R. cbn [bind] in R.
        destruct (create_fw_chains machine run fc l (g, gs)) as [[e2 [g2 gs2]]|] eqn:R2; [|discriminate]. cbn [bind] in R. injection R as _ <- _.
        eapply IH; [|exact R2]. intros y Y. apply S. now right. }
    apply X. auto.
  - cbn [fst snd] in Q. destruct (drop_rest K KO fc cs cs (fun _ z => z) F fw fs) as (fw1 & fs1 & R & RS). rewrite R in Q. cbn [bind] in Q. injection Q as <- <- <- <- <-.
    destruct (drop_fewer K KO fc cs cs (fun _ z => z) F fw fs) as (fw2 & fs2 & R2 & L). rewrite R in R2. injection R2 as <- <-.
    split; [apply names_refl|]. split; [exact RS|]. split; [now apply fewer_added|auto].
  - injection Q as <- <- <- <- <-. destruct TO as (UA' & FO'). split; [apply names_refl|]. split; [apply rest_refl|]. split; [apply added_refl|auto].
Qed.

Lemma stanza_trans a b c : same_stanza a b -> same_stanza b c -> same_stanza a c.
Proof. intros [->| ->] [->| ->]; [now left|now right|now right|]. right. reflexivity. Qed.
Lemma stanzas_trans l : forall l' l'', Forall2 same_stanza l l' -> Forall2 same_stanza l' l'' -> Forall2 same_stanza l l''.
Proof.
  induction l as [|a l IH]; intros l' l'' F F'; inversion F; subst; inversion F'; subst; constructor; eauto using stanza_trans.
Qed.
Lemma stanzas_refl l : Forall2 same_stanza l l.
Proof. induction l; constructor; auto. now left. Qed.
Lemma turns_log l : forall st s log st' s' acc en p later, turns machine run H G cf fc resolve l (st, s) = Ok (log, (st', s')) ->
  In (acc, en, p, later) log -> In (Receive en p later) l /\ in_force (st_acc st) l acc.
Proof.
  induction l as [|x l IH]; intros st s log st' s' acc en p later Q I; cbn [turns] in Q; [injection Q as <- _ _; destruct I|].
  match type of Q with bind ?t _ = _ => destruct t as [[a [st1 s1]]|] eqn:E; [|discriminate] end. cbn [bind] in Q.
  match type of Q with bind ?t _ = _ => destruct t as [[b [st2 s2]]|] eqn:E2; [|discriminate] end. cbn [bind] in Q. injection Q as <- <- <-.
  assert (L : (exists en0 p0 later0, x = Receive en0 p0 later0 /\ a = [(st_acc st, en0, p0, later0)] /\ Forall2 same_stanza (st_acc st) (st_acc st1)) \/
              (a = [] /\ (st_acc st1 = st_acc st \/ x = Reread (st_acc st1)))).
  { destruct x as [en0 p0 later0|all now| | |acc0]; cbn [take] in E;
      try (match type of E with bind ?t _ = _ => destruct t as [z|] eqn:E0; [|discriminate] end; cbn [bind] in E).
    - destruct z as [effs z]. match type of E with bind ?t _ = _ => destruct t as [z'|]; [|discriminate] end. cbn [bind] in E. injection E as <- <- <-.
      left. exists en0, p0, later0. split; [reflexivity|]. split; [reflexivity|]. pose proof (incoming_stanzas _ _ _ _ _ _ _ _ E0) as FA.
      clear - FA. induction FA as [|u v k k' Y FA IH]; constructor; auto. destruct Y as [->|(-> & _)]; [now left|now right].
    - injection E as <- <- <-. right. auto.
    - destruct z. injection E as <- <- <-. right. auto.
    - injection E as <- <- <-. right. auto.
    - injection E as <- <- <-. right. split; auto. }
  apply in_app_or in I as [I|I].
  - destruct L as [(en0 & p0 & later0 & -> & -> & _)|(-> & _)]; [|destruct I]. destruct I as [Q|[]]. injection Q as <- <- <- <-.
    split; [now left|]. exists (st_acc st). split; [now left|apply stanzas_refl].
  - destruct (IH _ _ _ _ _ _ _ _ _ E2 I) as (R & given & GV & F). split; [now right|]. destruct GV as [->|GV].
    + destruct L as [(en0 & p0 & later0 & -> & _ & F0)|(_ & [L|L])].
      * exists (st_acc st). split; [now left|]. eapply stanzas_trans; eauto.
      * rewrite L in F. exists (st_acc st). split; [now left|exact F].
      * exists (st_acc st1). split; [right; left; exact L|exact F].
    + exists given. split; [right; now right|exact F].
Qed.

Theorem turns_spec l : forall st cs (fw : firewall) fs log st' cs' fw' fs', Forall (turn_ok fc cs) l -> Forall usable (st_acc st) -> firewall_ok fc cs (st_acc st) ->
  turns machine run H G cf fc resolve l (st, (cs, (fw, fs))) = Ok (log, (st', (cs', (fw', fs')))) ->
  Forall2 same_names cs cs' /\ rest cs fw fw' /\ added (origin cs log) fw fw' /\ Forall usable (st_acc st') /\ firewall_ok fc cs (st_acc st').
Proof.
  induction l as [|x l IH]; intros st cs fw fs log st' cs' fw' fs' T UA FO Q; cbn [turns] in Q.
  - injection Q as <- <- <- <- <-. split; [apply names_refl|]. split; [apply rest_refl|]. split; [apply added_refl|auto].
  - inversion_clear T as [|? ? T1 T2]. destruct (take machine run H G cf fc resolve x (st, (cs, (fw, fs)))) as [[a [st1 [cs1 [fw1 fs1]]]]|] eqn:E; [|discriminate]. cbn [bind] in Q.
    match type of Q with bind ?t _ = _ => destruct t as [[b [st2 [cs2 [fw2 fs2]]]]|] eqn:E2; [|discriminate] end. cbn [bind] in Q. injection Q as <- <- <- <- <-.
    destruct (take_spec _ _ _ _ _ _ _ _ _ _ T1 UA FO E) as (N & R & A & UA1 & FO1).
    destruct (IH st1 cs1 fw1 fs1 b st2 cs2 fw2 fs2) as (N2 & R2 & A2 & UA2 & FO2); auto.
    { revert T2. apply Forall_impl. intros y. now apply turn_names. } { eapply firewall_names; eauto. }
    split; [eapply names_trans; eauto|]. split; [|split; [|split; [exact UA2|]]].
    + intros t n. rewrite (R t n). rewrite <- (names_bare cs cs1), <- (names_bare cs cs1 fw2) by exact N. apply R2.
    + eapply added_trans; [eapply added_impl; [|exact A]|eapply added_impl; [|exact A2]].
      * intros t n r. apply origin_incl. intros z Z. apply in_or_app. now left.
      * intros t n r O. eapply origin_incl; [|eapply origin_names; [exact N|exact O]]. intros z Z. apply in_or_app. now right.
    + eapply firewall_names; [apply names_sym; exact N|exact FO2].
Qed.

(** Every rule that may be made for a request carries its expiry. *)
Lemma expiring_commented a x target b e : numeral e x -> commented (a ++ expiring x target ++ b) e.
Proof. intros N. exists a, x, ([$ "-j"; target] ++ b). split; [exact N|]. reflexivity. Qed.
Lemma expiring_commented' a x target e : numeral e x -> commented (a ++ expiring x target) e.
Proof. intros N. exists a, x, [$ "-j"; target]. split; [exact N|]. reflexivity. Qed.
Lemma rule_commented cs a d now t n r : rule_for fc resolve cs a d now t n r -> commented r (now + d_timeout d).
Proof.
  intros (pl & _ & _ & [(_ & p & q & _ & [(_ & X)|(_ & X)])|(_ & p & q & more & ip & to & i & how & _ & _ & _ & X)]).
  - destruct X as (p1 & q1 & x & _ & _ & N & ->). now apply expiring_commented'.
  - destruct X as (p1 & q1 & x & _ & _ & N & ->). now apply expiring_commented'.
  - destruct X as [(_ & _ & X)|[(_ & _ & X)|[(_ & _ & X)|(_ & _ & X)]]].
    + destruct X as (p1 & q1 & x & _ & _ & N & ->). now apply expiring_commented'.
    + destruct X as (p1 & q1 & x & _ & _ & N & ->). now apply expiring_commented'.
    + destruct X as (p1 & q1 & x & n1 & _ & _ & N & _ & ->). now apply expiring_commented.
    + destruct X as (p1 & n1 & x & _ & _ & N & ->). now apply expiring_commented.
Qed.
Lemma authorized_commented cs x t n r e : authorizes H G cf fc resolve cs x t n r e -> commented r e.
Proof. destruct x as [[[acc en] p] later]. intros (data & fwd & i & a & d & _ & _ & _ & _ & _ & -> & R). eapply rule_commented; eauto. Qed.
End Turns.
