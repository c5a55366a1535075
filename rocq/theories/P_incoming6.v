(** Proofs: the data of a packet, together. *)
From Verif Require Import Bytes P_bytes M_base64 S_base64 S_text S_codec S_cipher S_ctx S_access S_cycle M_util M_message M_codec M_cipher M_ctx M_access
  M_replay M_cycle M_incoming S_incoming P_util P_util2 P_access P_ctx4 P_incoming P_incoming2 P_incoming3 P_incoming5.
From Coq Require Import Init.Byte List ZArith Bool Lia.
Import ListNotations.
Open Scope Z_scope.

Lemma http_iff cf p : packet_ok p ->
  (yes (cf_http cf) && bseq (map tolower (ztake 5 (cstr (k_buf p)))) ($ "get /") = true <-> is_http cf p).
Proof. intro PO. rewrite andb_true_iff, yes_on, get_iff by auto. reflexivity. Qed.
Lemma no_off_iff s : no s = true <-> off s.
Proof. apply no_off. Qed.
Lemma agent_iff cf p : packet_ok p -> is_http cf p ->
  (no (cf_any_user_agent cf) && (match strstr (fun c => c) ($ "User-Agent: Fwknop") (cstr (k_buf p)) with None => true | Some _ => false end) = false
   <-> agent_ok cf p).
Proof.
  intros PO HT. destruct (packet_text p PO) as (z & _ & _ & RT). unfold agent_ok. rewrite <- no_off_iff. destruct (no (cf_any_user_agent cf)); cbn [andb].
  - destruct (strstr (fun c => c) ($ "User-Agent: Fwknop") (cstr (k_buf p))) as [r|] eqn:S.
    + split; auto. intros _ _ _. destruct (strstr_some _ _ _ _ S) as (a & h & b & E & -> & M & _). rewrite map_id in M. subst h.
      exists (cstr (k_buf p)), a, b. split; auto.
    + split; [discriminate|]. intro Q. destruct (Q eq_refl HT) as (t & a & b & RT' & E). exfalso.
      rewrite (request_unique p t _ RT' RT) in E. eapply (strstr_none _ _ _ S a _ b E). apply map_id.
  - split; auto. intros _ Q. discriminate.
Qed.
Definition pre_checks (p : packet) : option (option unit) :=
  if k_len p <? 140 then Some None
  else if k_len p >? 1500 then Some None
  else match constant_runtime_cmp (k_buf p) ($ "U2FsdGVkX1") (zlen ($ "U2FsdGVkX1")) with
  | None => None
  | Some v => if v =? 0 then Some None
    else match (if k_len p >? 400 then constant_runtime_cmp (k_buf p) ($ "hQ") (zlen ($ "hQ")) else Some 1) with
    | None => None
    | Some v => if v =? 0 then Some None else Some (Some tt)
    end end.
Lemma pre_checks_iff p : packet_ok p ->
  (pre_checks p = Some (Some tt) /\ 140 <= k_len p /\ unprefixed p) \/ (pre_checks p = Some None /\ ~ (140 <= k_len p /\ unprefixed p)).
Proof.
  intro PO. pose proof (po_len p PO). unfold pre_checks.
  destruct (k_len p <? 140) eqn:L; [apply Z.ltb_lt in L; right; split; auto; lia|]. apply Z.ltb_ge in L.
  replace (k_len p >? 1500) with false by (symmetry; rewrite Z.gtb_ltb; apply Z.ltb_ge; lia).
  destruct (cmp_prefix p ($ "U2FsdGVkX1") PO) as (v & -> & I); [vm_compute; discriminate|change (zlen ($ "U2FsdGVkX1")) with 10; lia|].
  unfold unprefixed. destruct (Z.eqb_spec v 0) as [->|N].
  { right. split; auto. intros (_ & Q & _). destruct (proj1 I eq_refl) as [r E]. apply (Q r); auto. }
  assert (U1 : forall r, payload p <> $ "U2FsdGVkX1" ++ r) by (intros r Q; apply N; apply I; eauto).
  destruct (k_len p >? 400) eqn:G; rewrite Z.gtb_ltb in G.
  - apply Z.ltb_lt in G. destruct (cmp_prefix p ($ "hQ") PO) as (v2 & -> & I2); [vm_compute; discriminate|change (zlen ($ "hQ")) with 2; lia|].
    destruct (Z.eqb_spec v2 0) as [->|N2].
    + right. split; auto. intros (_ & _ & Q). destruct (proj1 I2 eq_refl) as [r E]. apply (Q G r); auto.
    + left. split; auto. split; auto. split; auto. intros _ r Q. apply N2. apply I2. eauto.
  - apply Z.ltb_ge in G. left. split; auto. split; auto. split; auto. intro. lia.
Qed.
Lemma preprocess_checks cf p : preprocess cf p =
  match pre_checks p with
  | None => Fault
  | Some None => Ok None
  | Some (Some _) =>
    if yes (cf_http cf) && bseq (map tolower (ztake 5 (cstr (k_buf p)))) ($ "get /") then
    if no (cf_any_user_agent cf) && (match strstr (fun c => c) ($ "User-Agent: Fwknop") (cstr (k_buf p)) with None => true | Some _ => false end)
    then Ok None
    else match xff_stage cf (k_buf p) (cstr (k_buf p)) with
    | Fault => Fault
    | Ok (buf1, fwd) =>
        let '(buf3, i) := strip buf1 (k_len p) in
        if i <? 140 then Ok None
        else if negb (is_base64 buf3 i) then Ok None
        else Ok (Some (cstr buf3, fwd))
    end
  else if negb (is_base64 (k_buf p) (k_len p)) then Ok None
  else Ok (Some (cstr (k_buf p), []))
  end.
Proof.
  rewrite preprocess_eq. unfold pre_checks. destruct (k_len p <? 140); [reflexivity|]. destruct (k_len p >? 1500); [reflexivity|].
  destruct (constant_runtime_cmp _ _ _) as [v|]; [|reflexivity]. destruct (v =? 0); [reflexivity|].
  destruct (if k_len p >? 400 then _ else _) as [v2|]; [|reflexivity]. destruct (v2 =? 0); reflexivity.
Qed.
Lemma raw_data p : packet_ok p -> is_base64 (k_buf p) (k_len p) = true -> cstr (k_buf p) = payload p /\ Forall b64_or_eq (payload p).
Proof.
  intros PO F. pose proof (po_len p PO). rewrite is_base64_take in F by lia. fold (payload p) in F.
  assert (NN : no_nul (payload p)). { intro I. rewrite forallb_forall in F. specialize (F _ I). discriminate. }
  split; [|apply b64_forall; auto]. destruct (packet_text p PO) as (z & B & _ & RT).
  apply (request_unique p); auto. split; auto.
Qed.

(** Only base64 data gets through, and it is the data the packet carries. *)
Lemma pre_sound cf p data fwd : packet_ok p -> preprocess cf p = Ok (Some (data, fwd)) ->
  carries cf p data /\ data_ok data /\ unprefixed p /\ agent_ok cf p.
Proof.
  intros PO. rewrite preprocess_checks. destruct (pre_checks_iff p PO) as [(-> & L & U)|[-> _]]; [|discriminate].
  pose proof (po_len p PO) as KL. pose proof (payload_len p PO) as PL.
  destruct (yes (cf_http cf) && bseq (map tolower (ztake 5 (cstr (k_buf p)))) ($ "get /")) eqn:HT.
  - apply http_iff in HT; auto. pose proof (agent_iff cf p PO HT) as AG. destruct (no (cf_any_user_agent cf) && _); [discriminate|].
    destruct (xff_stage cf (k_buf p) (cstr (k_buf p))) as [[buf1 f1]|] eqn:X; [|discriminate].
    destruct HT as (O & g & r & PY & LG). destruct (http_buf cf p buf1 f1 g r PO L PY LG X) as (buf3 & i & -> & RI & SND & _).
    destruct (i <? 140) eqn:LI; [discriminate|]. apply Z.ltb_ge in LI. destruct (is_base64 buf3 i); cbn [negb]; [|discriminate].
    intro E. injection E as <- <-. destruct (SND eq_refl) as (path & HP & -> & -> & FB).
    split; [left; split; [split; eauto|exists path; auto]|]. split; [|split; [auto|apply AG; auto]]. split; auto.
    unfold zlen in *. rewrite map_length. lia.
  - assert (NH : ~ is_http cf p) by (intro Q; apply http_iff in Q; congruence).
    destruct (is_base64 (k_buf p) (k_len p)) eqn:F; cbn [negb]; [|discriminate]. intro E. injection E as <- <-.
    destruct (raw_data p PO F) as [-> FB]. split; [right; auto|]. split; [split; auto; lia|]. split; auto.
    intros _ Q. contradiction.
Qed.
Lemma pre_complete cf p data : packet_ok p -> carries cf p data -> data_ok data -> unprefixed p -> agent_ok cf p ->
  preprocess cf p = Fault \/ exists fwd, preprocess cf p = Ok (Some (data, fwd)).
Proof.
  intros PO CA [LD FD] U AG. pose proof (po_len p PO) as KL. pose proof (payload_len p PO) as PL.
  assert (L : 140 <= k_len p).
  { destruct CA as [[_ (path & (g & rest & PY & _) & ->)]|[_ ->]]; [|lia]. rewrite PY, !zlen_app in PL.
    pose proof (zlen_nonneg g). pose proof (zlen_nonneg rest). unfold zlen in *. rewrite map_length in LD. lia. }
  rewrite preprocess_checks. destruct (pre_checks_iff p PO) as [(-> & _ & _)|[_ Q]]; [|exfalso; auto].
  destruct CA as [[HT (path & HP & ->)]|[NH ->]].
  - rewrite (proj2 (http_iff cf p PO) HT). rewrite (proj2 (agent_iff cf p PO HT) AG).
    destruct (xff_stage cf (k_buf p) (cstr (k_buf p))) as [[buf1 f1]|] eqn:X; [|auto]. right. exists f1.
    destruct HT as (O & g & r & PY & LG). destruct (http_buf cf p buf1 f1 g r PO L PY LG X) as (buf3 & i & -> & RI & _ & CMP).
    destruct (CMP path HP FD) as (-> & -> & ->). cbn [negb].
    replace (zlen path <? 140) with false; [reflexivity|]. symmetry. apply Z.ltb_ge. unfold zlen in *. rewrite map_length in LD. lia.
  - right. exists []. destruct (yes (cf_http cf) && _) eqn:HT; [exfalso; apply NH; apply http_iff; auto|].
    assert (F : is_base64 (k_buf p) (k_len p) = true) by (rewrite is_base64_take by lia; apply b64_forall; auto).
    rewrite F. cbn [negb]. destruct (raw_data p PO F) as [-> _]. reflexivity.
Qed.

(** ** The address in the header *)
Lemma address_15 v : is_valid_ipv4_addr v (zlen v) = true -> (zlen v >? 15) = false -> address_text v.
Proof. intros V L. apply address_iff; auto. rewrite Z.gtb_ltb in L. apply Z.ltb_ge in L. auto. Qed.
Lemma not_address v : is_valid_ipv4_addr v (zlen v) = false -> ~ address_text v.
Proof. intros V A. apply address_iff2 in A. congruence. Qed.
Lemma follows_unique h t v b v' b' : follows h t v b -> follows h t v' b' -> v = v' /\ b = b'.
Proof.
  intros (a & k & E & LK & NB & BB & MIN) (a' & k' & E' & LK' & NB' & BB' & MIN').
  assert (LA : zlen a = zlen a') by (specialize (MIN _ _ _ E' LK'); specialize (MIN' _ _ _ E LK); lia).
  assert (LL : zlen k = zlen k'). { pose proof (f_equal zlen (eq_trans LK (eq_sym LK'))) as Q. rewrite (lower_tolower k), (lower_tolower k') in Q. unfold zlen in *. rewrite !map_length in Q. exact Q. }
  rewrite E in E'. destruct (app_eq_len _ _ _ _ E' LA) as [-> E2]. destruct (app_eq_len _ _ _ _ E2 LL) as [-> E3].
  clear -E3 NB NB' BB BB'. revert v' E3 NB'. induction v as [|c v IH]; intros [|c' v'] E NB'; auto.
  - cbn in E. subst b. destruct BB as [Q|(c & r & Q & BC)]; [discriminate|]. injection Q as -> _. exfalso. apply NB'. left; auto.
  - cbn in E. subst b'. destruct BB' as [Q|(c2 & r & Q & BC)]; [discriminate|]. injection Q as -> _. exfalso. apply NB. left; auto.
  - cbn in E. injection E as <- E. destruct (IH ltac:(intro Q; apply NB; right; auto) v' E) as [-> ->]; auto.
Qed.
Lemma header_unique cf p v b v' b' : forward_header cf p v b -> forward_header cf p v' b' -> v = v' /\ b = b'.
Proof. intros (_ & _ & t & RT & F) (_ & _ & t' & RT' & F'). rewrite (request_unique p t' t RT' RT) in F'. eapply follows_unique; eauto. Qed.

Lemma pre_forwarded cf p data fwd : packet_ok p -> preprocess cf p = Ok (Some (data, fwd)) ->
  (forwarded cf p fwd) \/ (exists c v, forward_header cf p (c :: v) [] /\ ((fwd = v /\ address_text v) \/ (fwd = [] /\ ~ address_text v))).
Proof.
  intros PO. rewrite preprocess_checks. destruct (pre_checks_iff p PO) as [(-> & L & U)|[-> _]]; [|discriminate].
  destruct (yes (cf_http cf) && bseq (map tolower (ztake 5 (cstr (k_buf p)))) ($ "get /")) eqn:HT.
  2:{ assert (NH : ~ is_http cf p) by (intro Q; apply http_iff in Q; congruence).
      destruct (negb _); [discriminate|]. intro E. injection E as <- <-. left. right. split; auto. intros v b (_ & Q & _). contradiction. }
  apply http_iff in HT; auto. destruct (no (cf_any_user_agent cf) && _); [discriminate|].
  destruct (xff_stage cf (k_buf p) (cstr (k_buf p))) as [[buf1 f1]|] eqn:X; [|discriminate].
  destruct (strip buf1 (k_len p)) as [buf3 i]. destruct (i <? 140); [discriminate|]. destruct (negb _); [discriminate|].
  intro E. injection E as _ <-. destruct (packet_text p PO) as (z & B & _ & RT). set (t := cstr (k_buf p)) in *. rewrite B in X.
  destruct (xff_stage_cases cf t z (proj1 RT)) as [[Q NF]|(u & v & b & O & FO & TE & _ & K)].
  - rewrite Q in X. injection X as _ <-. left. right. split; auto. intros v b (O & _ & t' & RT' & F) _.
    rewrite (request_unique p t' t RT' RT) in F. eapply NF; eauto.
  - assert (FH : forward_header cf p v b) by (split; auto; split; auto; exists t; auto). destruct b as [|c b'].
    + destruct v as [|c v'].
      * specialize (K _ X). injection K as _ ->. left. right. split; auto. intros v b F [[Q _] _].
        destruct (header_unique _ _ _ _ _ _ F FH) as [-> _]. change (zlen (@nil byte)) with 0 in Q. lia.
      * rewrite K in X. right. exists c, v'. split; auto. destruct (is_valid_ipv4_addr v' (zlen v')) eqn:V.
        -- destruct (zlen v' >? 15) eqn:G; [discriminate|]. injection X as _ <-. left. split; auto. apply address_15; auto.
        -- injection X as _ <-. right. split; auto. apply not_address; auto.
    + rewrite K in X. left. destruct (is_valid_ipv4_addr v (zlen v)) eqn:V.
      * destruct (zlen v >? 15) eqn:G; [discriminate|]. injection X as _ <-. left. split; [apply address_15; auto|eauto].
      * injection X as _ <-. right. split; auto. intros v2 b2 F. destruct (header_unique _ _ _ _ _ _ F FH) as [-> _]. apply not_address; auto.
Qed.

(** No memory errors, unless a header is at the end or its value has 16 characters. *)
Lemma pre_no_fault cf p : packet_ok p -> (forall v b, forward_header cf p v b -> b <> [] /\ zlen v <= 15) -> preprocess cf p <> Fault.
Proof.
  intros PO FH. rewrite preprocess_checks. destruct (pre_checks_iff p PO) as [(-> & L & U)|[-> _]]; [|discriminate].
  destruct (yes (cf_http cf) && bseq (map tolower (ztake 5 (cstr (k_buf p)))) ($ "get /")) eqn:HT; [|destruct (negb _); discriminate].
  apply http_iff in HT; auto. destruct (no (cf_any_user_agent cf) && _); [discriminate|].
  assert (NF : xff_stage cf (k_buf p) (cstr (k_buf p)) <> Fault).
  { destruct (packet_text p PO) as (z & B & _ & RT). set (t := cstr (k_buf p)) in *. rewrite B.
    destruct (xff_stage_cases cf t z (proj1 RT)) as [[-> _]|(u & v & b & O & FO & TE & _ & K)]; [discriminate|].
    destruct (FH v b) as [NE LV]. { split; auto; split; auto; exists t; auto. }
    destruct b as [|c b']; [congruence|]. rewrite K. destruct (is_valid_ipv4_addr v (zlen v)); [|discriminate].
    replace (zlen v >? 15) with false; [discriminate|]. symmetry. rewrite Z.gtb_ltb. apply Z.ltb_ge. lia. }
  destruct (xff_stage cf (k_buf p) (cstr (k_buf p))) as [[buf1 f1]|]; [|congruence].
  destruct (strip buf1 (k_len p)) as [buf3 i]. destruct (i <? 140); [discriminate|]. destruct (negb _); discriminate.
Qed.
