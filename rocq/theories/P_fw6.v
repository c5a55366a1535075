(** Proofs about check_firewall_rules: all chains, and the rounds of the main loop. *)
From Verif Require Import Bytes M_util M_message M_codec M_access M_cycle M_incoming M_packet M_fw
  S_text S_fw P_bytes P_util P_util2 P_fw P_fw2 P_fw3 P_fw4 P_fw5.
From Coq Require Import Init.Byte List ZArith Bool Lia.
Import ListNotations.
Open Scope Z_scope.

Lemma numeral_mono n m s t : numeral n s -> numeral m t -> 0 <= n <= m -> zlen s <= zlen t.
Proof.
  intros S T B. pose proof T as (N & A & D & _). pose proof (decimal_bound t A) as L. rewrite D in L.
  apply (numeral_zlen n); auto; [lia|]. destruct t; [easy|]. rewrite zlen_cons. pose proof (zlen_nonneg t). lia.
Qed.
Lemma without_drops {A} (P : A -> Prop) l l' : without P l l' -> only_drops P l l'.
Proof. induction 1; [constructor|now apply drops_drop|now apply drops_keep]. Qed.
Lemma without_clean {A} (P : A -> Prop) l l' : without P l l' -> Forall (fun x => ~ P x) l'.
Proof. induction 1; auto. Qed.
Lemma without_again {A} (P : A -> Prop) l l' : Forall (fun x => ~ P x) l -> without P l l' -> l' = l.
Proof. intros F W. induction W; auto; inversion F; subst; [easy|]. f_equal. auto. Qed.
Lemma without_in {A} (P : A -> Prop) l l' x : without P l l' -> (In x l' <-> In x l /\ ~ P x).
Proof.
  induction 1 as [|y l l' Py W IH|y l l' Py W IH]; cbn.
  - tauto.
  - rewrite IH. split; [tauto|]. intros [[->|I] N]; [easy|auto].
  - rewrite IH. split; [intros [->|[I N]]; auto|]. intros [[->|I] N]; auto.
Qed.
Lemma drops_forall {A} (P Q : A -> Prop) l l' : only_drops P l l' -> Forall Q l -> Forall Q l'.
Proof. induction 1; intro F; auto; inversion F; subst; auto. Qed.

Section All.
Variable K : iptables.
Variable KO : iptables_ok K.
Variable cf : fwconf.
Variable now : Z.

Lemma drops_lines l l' : only_drops (expired K now) l l' -> forall k k', 0 <= k' <= k ->
  zlen (rule_lines K k' l') <= zlen (rule_lines K k l).
Proof.
  destruct KO as (NU & _). induction 1 as [|x l l' X D IH|x l l' D IH]; intros k k' B.
  - reflexivity.
  - cbn [rule_lines]. rewrite !zlen_app. specialize (IH (k + 1) k' ltac:(lia)).
    pose proof (zlen_nonneg (number K k)). pose proof (zlen_nonneg (show K x)). change (zlen [" "%byte]) with 1. change (zlen [x0a]) with 1. lia.
  - cbn [rule_lines]. rewrite !zlen_app. specialize (IH (k + 1) (k' + 1) ltac:(lia)).
    pose proof (numeral_mono k' k _ _ (NU k' ltac:(lia)) (NU k ltac:(lia)) ltac:(lia)). lia.
Qed.

(** The firewall in the middle of a pass *)
Definition midway (fw0 fw : firewall) : Prop := forall t c, fw t c = fw0 t c \/ cleaned K now fw0 fw t c.

Lemma midway_checkable fw0 fw i c : midway fw0 fw -> checkable K (f_cmd cf) fw0 i c -> checkable K (f_cmd cf) fw i c.
Proof.
  intros M [T|(NF & I & rs & E & R & L)]; [now left|]. right. split; auto. split; auto.
  destruct (M (c_table c) (c_to c)) as [Q|(rs0 & rs' & E0 & E' & WO)].
  - exists rs. rewrite Q. auto.
  - rewrite E in E0. injection E0 as <-. exists rs'. split; auto. apply without_drops in WO. split; [eapply drops_forall; eauto|].
    unfold listing in *. rewrite zlen_app in *. pose proof (drops_lines _ _ WO 1 1 ltac:(lia)). lia.
Qed.

Lemma in_names_dec (cs : list chain) t n : {exists d, In d cs /\ c_table d = t /\ c_to d = n} + {~ exists d, In d cs /\ c_table d = t /\ c_to d = n}.
Proof.
  induction cs as [|c cs IH]; [right; intros (d & [] & _)|].
  destruct (list_eq_dec Byte.byte_eq_dec (c_table c) t) as [A|A], (list_eq_dec Byte.byte_eq_dec (c_to c) n) as [B|B].
  { left. exists c. cbn. auto. }
  all: destruct IH as [IH|IH]; [left; destruct IH as (d & I & D); exists d; cbn; auto|right].
  all: intros (d & [->|I] & D1 & D2); [congruence|apply IH; eauto].
Qed.

Lemma check_chains_pass cs : forall i fw0 fw, midway fw0 fw ->
  (forall j c, nth_error cs j = Some c -> checkable K (f_cmd cf) fw0 (i + j) c) ->
  exists cs' fw',
    check_chains machine (run_iptables K) cf true now i cs (fw, []) = Ok (cs', (fw', [])) /\
    Forall2 same_names cs cs' /\ midway fw0 fw' /\
    (forall c, In c cs -> c_table c <> [] -> cleaned K now fw0 fw' (c_table c) (c_to c)) /\
    (forall t n, ~ (exists c, In c cs /\ c_table c = t /\ c_to c = n) -> fw' t n = fw t n) /\
    (forall t n, cleaned K now fw0 fw t n -> cleaned K now fw0 fw' t n).
Proof.
  induction cs as [|c cs IH]; intros i fw0 fw M H.
  - exists [], fw. split; [reflexivity|]. split; [constructor|]. split; auto. split; [intros ? []|]. split; auto.
  - cbn [check_chains]. pose proof (midway_checkable _ _ _ _ M (H O c eq_refl)) as CK. rewrite Nat.add_0_r in CK.
    assert (STEP : exists c' fw1, check_chain machine (run_iptables K) cf true now i c (fw, []) = Ok (c', (fw1, [])) /\
      same_names c c' /\ elsewhere (c_table c) (c_to c) fw fw1 /\
      (c_table c <> [] -> cleaned K now fw fw1 (c_table c) (c_to c)) /\
      (c_table c = [] -> fw1 = fw)).
    { destruct CK as [T|(NF & I & rs & E & R & L)].
      - exists c, fw. unfold check_chain. cbn [negb andb]. rewrite T. cbn [orb]. change (zlen (@nil Bytes.byte) =? 0) with true. cbn [orb].
        repeat split; auto using else_refl. congruence.
      - destruct (check_pass K KO cf true now i c fw [] rs) as (c' & fw' & fs' & rs' & S1 & S2 & S3 & S4 & S5 & S6 & S7); auto.
        destruct (S7 eq_refl) as [-> S8]. exists c', fw'. split; auto. split; auto. split; auto. split.
        + intros _. exists rs, rs'. auto.
        + intro T. destruct NF as (_ & (N & _) & _). easy. }
    destruct STEP as (c' & fw1 & S1 & S2 & S3 & S4 & S5). rewrite S1. cbn [bind].
    assert (CL : c_table c <> [] -> cleaned K now fw0 fw1 (c_table c) (c_to c)).
    { intro T. destruct (S4 T) as (rs & rs' & E & E' & WO). destruct (M (c_table c) (c_to c)) as [Q|(r0 & r1 & A1 & A2 & A3)].
      - exists rs, rs'. rewrite <- Q. auto.
      - rewrite E in A2. injection A2 as <-. pose proof (without_again _ _ _ (without_clean _ _ _ A3) WO) as ->. exists r0, rs. auto. }
    assert (M1 : midway fw0 fw1).
    { intros t n. destruct (in_names_dec [c] t n) as [(d & [<-|[]] & <- & <-)|N].
      - destruct (list_eq_dec Byte.byte_eq_dec (c_table c) []) as [T|T].
        + rewrite (S5 T). apply M.
        + right. auto.
      - assert (EQ : fw1 t n = fw t n) by (apply S3; intros [-> ->]; apply N; exists c; cbn; auto).
        destruct (M t n) as [Q|(r0 & r1 & A1 & A2 & A3)]; [left; congruence|right; exists r0, r1; rewrite EQ; auto]. }
    assert (KEEP : forall t n, cleaned K now fw0 fw t n -> cleaned K now fw0 fw1 t n).
    { intros t n CN. destruct (in_names_dec [c] t n) as [(d & [<-|[]] & <- & <-)|N].
      - destruct (list_eq_dec Byte.byte_eq_dec (c_table c) []) as [T|T]; [rewrite (S5 T)|]; auto.
      - destruct CN as (r0 & r1 & A1 & A2 & A3). exists r0, r1. split; auto. split; auto. rewrite S3; auto. intros [-> ->]. apply N. exists c. cbn. auto. }
    destruct (IH (S i) fw0 fw1 M1) as (cs' & fw' & R1 & R2 & R3 & R4 & R5 & R6).
    { intros j d E. replace (S i + j)%nat with (i + S j)%nat by lia. apply H. exact E. }
    rewrite R1. cbn [bind]. exists (c' :: cs'), fw'. split; [reflexivity|]. split; [constructor; auto|]. split; auto. split.
    + intros d [<-|I] T; auto.
    + split; [|auto]. intros t n N. rewrite R5.
      * apply S3. intros [-> ->]. apply N. exists c. cbn. auto.
      * intros (d & I & D). apply N. exists d. cbn. auto.
Qed.

Theorem check_all cs fw :
  (forall j c, nth_error cs j = Some c -> checkable K (f_cmd cf) fw j c) ->
  exists cs' fw',
    check_firewall_rules machine (run_iptables K) cf true now (cs, (fw, [])) = Ok (cs', (fw', [])) /\
    Forall2 same_names cs cs' /\
    (forall c, In c cs -> c_table c <> [] -> cleaned K now fw fw' (c_table c) (c_to c)) /\
    (forall t n, ~ (exists c, In c cs /\ c_table c = t /\ c_to c = n) -> fw' t n = fw t n).
Proof.
  intro H. destruct (check_chains_pass cs 0 fw fw) as (cs' & fw' & R1 & R2 & R3 & R4 & R5 & R6); auto.
  { intros t n. now left. }
  exists cs', fw'. split; [exact R1|]. auto.
Qed.

End All.

(** ** Rounds of the main loop *)
Section Rounds.
Variable W : Type.
Variable exec : W -> list bytes -> W * ended * bytes.
Variable cf : fwconf.
Variable threshold : Z.
Hypothesis TP : 0 < threshold.

Lemma tick_spec ctr : 0 <= ctr < threshold ->
  snd (rules_tick threshold ctr) = (ctr + 1) mod threshold /\
  fst (rules_tick threshold ctr) = ((ctr + 1) mod threshold =? 0).
Proof.
  intro B. unfold rules_tick. destruct (Z.gtb_spec threshold 0); [|lia].
  destruct (Z.eqb_spec ((ctr + 1) mod threshold) 0) as [E|E]; cbn [fst snd]; split; auto.
  rewrite Z.mod_small; auto. destruct (Z.eq_dec (ctr + 1) threshold) as [Q|Q]; [|lia].
  exfalso. apply E. rewrite Q. apply Z.mod_same. lia.
Qed.
End Rounds.
