(** Proofs: whole packets, expiration, altered packets. *)
From Verif Require Import Bytes P_bytes M_base64 S_base64 S_text S_codec S_cipher S_ctx S_access S_replay S_cycle M_util M_message M_codec M_cipher M_ctx M_access
  M_replay M_cycle M_incoming S_incoming P_base64 P_util P_util2 P_codec P_access P_replay P_ctx P_ctx2 P_ctx4 P_ctx6 P_incoming P_incoming2 P_incoming3 P_incoming4
  P_incoming5 P_incoming6 P_incoming7.
From Coq Require Import Init.Byte List ZArith Bool Lia.
Import ListNotations.
Open Scope Z_scope.

Lemma data_b64_all data : data_ok data -> b64_all data = true.
Proof. intros [_ F]. unfold b64_all. apply b64_forall. exact F. Qed.

(** ** Every effect has a stanza *)
Lemma authorized H G cf en p st effs st' e : hashes_ok H -> packet_ok p -> config_ok (st_acc st) ->
  incoming_spa H G cf en p st = Ok (effs, st') -> In e effs ->
  exists data fwd i a, carries cf p data /\ data_ok data /\ forwarded_read cf p fwd /\
    nth_error (st_acc st) i = Some a /\ lets H G cf (e_now en) p fwd data a (1 + Z.of_nat i) e.
Proof.
  intros HO PO CO E I. destruct (incoming_cases _ _ _ _ _ _ _ _ E) as [[-> _]|(data & fwd & raw & acc' & rp' & cy' & PP & TR & L & ->)]; [destruct I|].
  destruct (pre_sound cf p data fwd PO PP) as (C & D & _). pose proof (pre_forwarded cf p data fwd PO PP) as FW.
  destruct (loop_sound H G cf en p data fwd raw HO (data_b64_all _ D) PO _ _ _ _ _ _ _ _ _ CO L e I) as (i & a & N & LE).
  exists data, fwd, i, a. auto.
Qed.

(** ** What reaches the stanzas *)
Lemma raw_digest_ok H data : hashes_ok H -> 36 <= zlen data < 1500 -> get_raw_digest H data = Ok (Some (packet_digest H data)).
Proof.
  intros HO L. destruct (raw_digest H data HO) as [->|Q].
  - replace (36 <=? zlen data) with true by (symmetry; apply Z.leb_le; lia). replace (zlen data <? 1500) with true by (symmetry; apply Z.ltb_lt; lia). reflexivity.
  - exfalso. revert Q. unfold get_raw_digest, fko_new_with_data. cbv zeta.
    assert (V : strnlen data MAX_SPA_ENCODED_MSG_SIZE = zlen data) by (unfold strnlen, MAX_SPA_ENCODED_MSG_SIZE; lia). rewrite V.
    replace (is_valid_encoded_msg_len (zlen data)) with true by (symmetry; unfold is_valid_encoded_msg_len, MIN_SPA_ENCODED_MSG_SIZE, MAX_SPA_ENCODED_MSG_SIZE; lia).
    cbn [negb]. unfold set_encryption_mode, set_hmac_type. change ((FKO_ENC_MODE_CBC <? 0) || (FKO_ENC_MODE_CBC >=? FKO_LAST_ENC_MODE)) with false.
    change ((0 <? 0) || (0 >=? FKO_LAST_HMAC_MODE)) with false. cbn [ok negb]. unfold set_raw_digest_type.
    change ((FKO_DEFAULT_DIGEST <? 1) || (FKO_DEFAULT_DIGEST >=? FKO_LAST_DIGEST_TYPE)) with false. cbn iota beta.
    cbn [ok negb c_raw_type set_c_raw_type]. change (FKO_DEFAULT_DIGEST =? FKO_DEFAULT_DIGEST) with true. cbn [negb]. unfold set_raw_spa_digest. ctx_simp.
    unfold set_digest. rewrite V. replace (zlen data =? MAX_SPA_ENCODED_MSG_SIZE) with false by (symmetry; apply Z.eqb_neq; unfold MAX_SPA_ENCODED_MSG_SIZE; lia).
    change (hash_of H FKO_DEFAULT_DIGEST) with (Some (h_sha256 H)). cbn iota beta. ctx_simp. discriminate.
Qed.
Lemma processed_loop H G cf en p st effs st' data : hashes_ok H -> packet_ok p -> cache_ok (fst (st_replay st)) ->
  processed H cf (fst (st_replay st)) p data -> incoming_spa H G cf en p st = Ok (effs, st') ->
  exists fwd, forwarded_read cf p fwd /\
  ((effs = [] /\ st' = st /\ forall a, In a (st_acc st) -> ~ in_nets (a_source a) (p_src (k_info p))) \/
   exists raw acc' rp' cy', (raw = None \/ raw = Some (packet_digest H data)) /\
     stanza_loop H G cf en (k_info p) data fwd raw (st_acc st) 1 false (st_replay st) (st_cycles st) = Ok (effs, acc', rp', cy') /\ st' = mkSt acc' rp' cy').
Proof.
  intros HO PO CO (CA & DO & DL & UP & AG & NR) E. unfold incoming_spa in E.
  destruct (pre_complete cf p data PO CA DO UP AG) as [Q|[fwd Q]]; rewrite Q in E; [discriminate|].
  exists fwd. split; [apply (pre_forwarded cf p data fwd PO Q)|].
  destruct (existsb (fun a => compare_addr_list (a_source a) (p_src (k_info p))) (st_acc st)) eqn:EX; cbn [negb] in E.
  2:{ injection E as <- <-. left. split; auto. split; auto. intros a I N. apply in_nets_iff in N.
      assert (K : existsb (fun a => compare_addr_list (a_source a) (p_src (k_info p))) (st_acc st) = true) by (apply existsb_exists; eauto). congruence. }
  right. destruct (yes (cf_digest_persistence cf)) eqn:Y.
  - rewrite raw_digest_ok in E by (auto; destruct DO as [DO _]; lia).
    destruct (is_replay_spec (fst (st_replay st)) (packet_digest H data) ltac:(apply digest_ok; auto) CO) as (b & IR & IB). rewrite IR in E.
    destruct b. { exfalso. apply NR; [apply yes_on; auto|]. apply IB; auto. }
    destruct (stanza_loop _ _ _ _ _ _ _ _ _ _ _ _ _) as [[[[eff acc'] rp'] cy']|] eqn:L; [|discriminate]. injection E as <- <-. do 4 eexists. split; [right; reflexivity|]. split; eauto.
  - destruct (stanza_loop _ _ _ _ _ _ _ _ _ _ _ _ _) as [[[[eff acc'] rp'] cy']|] eqn:L; [|discriminate]. injection E as <- <-. do 4 eexists. split; [left; reflexivity|]. split; eauto.
Qed.
Lemma first_stanza H G cf en p st effs st' data : hashes_ok H -> packet_ok p -> config_ok (st_acc st) -> cache_ok (fst (st_replay st)) ->
  e_writable en = true -> processed H cf (fst (st_replay st)) p data -> (forall fwd, closable H G p fwd data (st_acc st)) ->
  incoming_spa H G cf en p st = Ok (effs, st') ->
  exists fwd, forwarded_read cf p fwd /\
  ((effs = [] /\ forall i a e, nth_error (st_acc st) i = Some a -> ~ lets H G cf (e_now en) p fwd data a (1 + Z.of_nat i) e) \/
   exists i a e, nth_error (st_acc st) i = Some a /\ effs = [e] /\ lets H G cf (e_now en) p fwd data a (1 + Z.of_nat i) e /\
     forall j a' e', (j < i)%nat -> nth_error (st_acc st) j = Some a' -> ~ lets H G cf (e_now en) p fwd data a' (1 + Z.of_nat j) e').
Proof.
  intros HO PO CO CK W PR CL E. destruct (processed_loop _ _ _ _ _ _ _ _ _ HO PO CK PR E) as (fwd & FW & [(-> & -> & NI)|(raw & acc' & rp' & cy' & _ & L & ->)]);
    exists fwd; (split; [exact FW|]).
  - left. split; auto. intros i a e N (AD & _). apply (NI a); [eapply nth_error_In; eauto|apply AD].
  - destruct PR as (_ & DO & _). refine (loop_first H G cf en p data fwd raw HO (data_b64_all _ DO) PO _ _ _ _ _ _ _ _ _ W CO _ L).
    intros a m d I O A (cc & CC & DC & B). exact (CL fwd a m d cc I O A CC DC B).
Qed.

(** Without the hypothesis about the packet: at most one effect, from the first stanza. *)
Lemma one_effect H G cf en p st effs st' : hashes_ok H -> packet_ok p -> config_ok (st_acc st) -> e_writable en = true ->
  (forall data fwd, carries cf p data -> closable H G p fwd data (st_acc st)) ->
  incoming_spa H G cf en p st = Ok (effs, st') -> effs = [] \/ exists e, effs = [e].
Proof.
  intros HO PO CO W CL E. destruct (incoming_cases _ _ _ _ _ _ _ _ E) as [[-> _]|(data & fwd & raw & acc' & rp' & cy' & PP & TR & L & ->)]; [auto|].
  destruct (pre_sound cf p data fwd PO PP) as (C & D & _).
  destruct (loop_first H G cf en p data fwd raw HO (data_b64_all _ D) PO _ _ _ _ _ _ _ _ _ W CO
    ltac:(intros a m d I O A (cc & CC & DC & B); exact (CL data fwd C a m d cc I O A CC DC B)) L) as [[-> _]|(i & a & e & _ & -> & _)]; eauto.
Qed.

(** ** Expiration *)
Lemma step_stanza H G cf en p data fwd raw a k added rp cy fl eff a' added' rp' cy' :
  step H G cf en (k_info p) data fwd raw a k added rp cy = Ok (fl, eff, a', added', rp', cy') ->
  a' = if src_dst_check a (k_info p) then snd (check_stanza_expiration (e_now en) a) else a.
Proof.
  unfold step. destruct (src_dst_check a (k_info p)); cbn [negb]; [|intro E; injection E as <- <- <- <- <- <-; reflexivity].
  destruct (check_stanza_expiration (e_now en) a) as [live a1]. cbn [snd]. destruct (negb live); [intro E; injection E as <- <- <- <- <- <-; reflexivity|].
  destruct (decrypt_packet H G a1 data) as [[[c sg]|]|]; [|intro E; injection E as <- <- <- <- <- <-; reflexivity|discriminate].
  destruct (note_replay cf en (k_info p) raw added rp) as [[okd ad1] rp1]. destruct (negb okd); [intro E; injection E as <- <- <- <- <- <-; reflexivity|].
  destruct (handle_gpg_sigs _ _ _ _) as [[|]|]; [|intro E; injection E as <- <- <- <- <- <-; reflexivity|discriminate].
  destruct (checks _ _ _ _ _ _) as [[| |d]|]; [| | |discriminate]. 1,2: intro E; injection E as <- <- <- <- <- <-; reflexivity.
  destruct (act _ _ _ _ _ _) as [[[fl1 eff1] cy1]|]; [|discriminate]. intro E; injection E as <- <- <- <- <- <-; reflexivity.
Qed.
Lemma snd_expiration now a : (snd (check_stanza_expiration now a) = a /\ ~ (a_expire a > 0 /\ a_expired a = false /\ now > a_expire a)) \/
  (snd (check_stanza_expiration now a) = expire_stanza a /\ a_expire a > 0 /\ now > a_expire a).
Proof.
  unfold check_stanza_expiration. destruct (a_expire a >? 0) eqn:E1; [|left; split; auto; lia].
  destruct (a_expired a); [left; split; auto; intros (_ & Q & _); discriminate|]. destruct (now >? a_expire a) eqn:E2; cbn [snd]; [right; split; auto; lia|left; split; auto; lia].
Qed.
Lemma loop_stanzas H G cf en p data fwd raw : forall l k added rp cy eff l' rp' cy',
  stanza_loop H G cf en (k_info p) data fwd raw l k added rp cy = Ok (eff, l', rp', cy') ->
  Forall2 (fun a a' => a' = a \/ (a' = expire_stanza a /\ addressed a p /\ a_expire a > 0 /\ e_now en > a_expire a)) l l'.
Proof.
  assert (SAME : forall r : list stanza, Forall2 (fun a a' => a' = a \/ (a' = expire_stanza a /\ addressed a p /\ a_expire a > 0 /\ e_now en > a_expire a)) r r).
  { induction r; constructor; auto. }
  induction l as [|a r IH]; intros k added rp cy eff l' rp' cy' E.
  - cbn [stanza_loop] in E. injection E as <- <- <- <-. constructor.
  - rewrite loop_cons in E. destruct (step H G cf en (k_info p) data fwd raw a k added rp cy) as [[[[[[fl eff1] a1] ad1] rp1] cy1]|] eqn:ST; [|discriminate].
    apply step_stanza in ST.
    assert (A1 : a1 = a \/ (a1 = expire_stanza a /\ addressed a p /\ a_expire a > 0 /\ e_now en > a_expire a)).
    { destruct (src_dst_check a (k_info p)) eqn:SD; [|auto]. apply addressed_iff in SD.
      destruct (snd_expiration (e_now en) a) as [[Q _]|(Q & X & Y)]; rewrite Q in ST; auto. }
    destruct fl.
    + destruct (stanza_loop H G cf en (k_info p) data fwd raw r (k + 1) ad1 rp1 cy1) as [[[[eff2 r2] rp2] cy2]|] eqn:L2; [|discriminate].
      injection E as <- <- <- <-. constructor; eauto.
    + injection E as <- <- <- <-. constructor; auto.
Qed.
(** Every stanza is looked at if nothing is done. *)
Lemma loop_noticed H G cf en p data fwd raw : hashes_ok H -> b64_all data = true -> packet_ok p -> forall l k added rp cy l' rp' cy',
  Forall (fun a => stanza_ok a /\ NoDup (a_open a)) l ->
  stanza_loop H G cf en (k_info p) data fwd raw l k added rp cy = Ok ([], l', rp', cy') ->
  Forall2 (fun a a' => addressed a p -> a_expire a > 0 -> e_now en > a_expire a -> a_expired a' = true) l l'.
Proof.
  intros HO B PO. induction l as [|a r IH]; intros k added rp cy l' rp' cy' F E.
  - cbn [stanza_loop] in E. injection E as <- <- <-. constructor.
  - rewrite loop_cons in E. inversion F as [|? ? [SO ND] F']; subst.
    destruct (step H G cf en (k_info p) data fwd raw a k added rp cy) as [[[[[[fl eff1] a1] ad1] rp1] cy1]|] eqn:ST; [|discriminate].
    pose proof (step_sound H G cf en p data fwd raw HO B PO _ _ _ _ _ _ _ _ _ _ _ SO ND ST) as SS. apply step_stanza in ST.
    assert (A1 : addressed a p -> a_expire a > 0 -> e_now en > a_expire a -> a_expired a1 = true).
    { intros AD X1 X2. apply addressed_iff in AD. rewrite AD in ST. subst a1. destruct (snd_expiration (e_now en) a) as [[-> N]|[-> _]]; [|reflexivity].
      destruct (a_expired a); [reflexivity|]. exfalso. apply N. auto. }
    destruct fl.
    + destruct (stanza_loop H G cf en (k_info p) data fwd raw r (k + 1) ad1 rp1 cy1) as [[[[eff2 r2] rp2] cy2]|] eqn:L2; [|discriminate].
      injection E as E <- <- <-. apply app_eq_nil in E as [-> ->]. constructor; eauto.
    + exfalso. injection E as -> <- <- <-. destruct SS as [[_ Q]|(e & Q & _)]; discriminate.
Qed.
Lemma incoming_stanzas H G cf en p st effs st' : incoming_spa H G cf en p st = Ok (effs, st') ->
  Forall2 (fun a a' => a' = a \/ (a' = expire_stanza a /\ addressed a p /\ a_expire a > 0 /\ e_now en > a_expire a)) (st_acc st) (st_acc st').
Proof.
  intro E. destruct (incoming_cases _ _ _ _ _ _ _ _ E) as [[-> ->]|(data & fwd & raw & acc' & rp' & cy' & PP & TR & L & ->)].
  - induction (st_acc st); constructor; auto.
  - cbn [st_acc]. eapply loop_stanzas; eauto.
Qed.
Lemma noticed H G cf en p st st' data i a : hashes_ok H -> packet_ok p -> config_ok (st_acc st) -> cache_ok (fst (st_replay st)) ->
  processed H cf (fst (st_replay st)) p data -> incoming_spa H G cf en p st = Ok ([], st') ->
  nth_error (st_acc st) i = Some a -> addressed a p -> a_expire a > 0 -> e_now en > a_expire a ->
  nth_error (st_acc st') i = Some (expire_stanza a) \/ (a_expired a = true /\ nth_error (st_acc st') i = Some a).
Proof.
  intros HO PO CO CK PR E N AD X1 X2. pose proof (incoming_stanzas _ _ _ _ _ _ _ _ E) as FA.
  assert (G2 : forall R (l l' : list stanza), Forall2 R l l' -> nth_error l i = Some a -> exists a', nth_error l' i = Some a' /\ R a a').
  { clear. intros R l l' F. revert i. induction F; intros [|i] Q; cbn in *; try discriminate; eauto. injection Q as ->. eauto. }
  destruct (G2 _ _ _ FA N) as (a' & N' & C).
  assert (EX : a_expired a' = true).
  { destruct (processed_loop _ _ _ _ _ _ _ _ _ HO PO CK PR E) as (fwd & FW & [(_ & -> & NI)|(raw & acc' & rp' & cy' & _ & L & ->)]).
    - exfalso. apply (NI a); [eapply nth_error_In; eauto|apply AD].
    - destruct PR as (_ & DO & _). pose proof (loop_noticed _ _ _ _ _ _ _ _ HO (data_b64_all _ DO) PO _ _ _ _ _ _ _ _ CO L) as FN.
      destruct (G2 _ _ _ FN N) as (a2 & N2 & C2). cbn [st_acc] in N'. rewrite N' in N2. injection N2 as <-. auto. }
  destruct C as [->|(-> & _)]; auto.
Qed.
Definition only_arrivals (l : list (happening * list effect)) : Prop := Forall (fun x => exists en p, fst x = Arrives en p /\ packet_ok p) l.
Definition of_stanza (e : effect) : Z := match e with Grant k _ | Command k _ _ | CycleOpen k _ => k end.
Lemma lets_number H G cf now p fwd data a k e : lets H G cf now p fwd data a k e -> of_stanza e = k.
Proof. intros (_ & _ & m & d & _ & _ & _ & _ & M). destruct e; apply M. Qed.
Lemma config_step H G cf en p st effs st' : incoming_spa H G cf en p st = Ok (effs, st') -> config_ok (st_acc st) -> config_ok (st_acc st').
Proof.
  intros E C. pose proof (incoming_stanzas _ _ _ _ _ _ _ _ E) as F. revert C. unfold config_ok. induction F as [|a a' l l' Q F IH]; intro C; [constructor|].
  inversion C as [|? ? [S1 S2] C']; subst. constructor; auto. destruct Q as [->|(-> & _)]; auto.
Qed.
Lemma sticky H G cf st l st' i a : hashes_ok H -> config_ok (st_acc st) -> only_arrivals l -> history H G cf st l st' ->
  nth_error (st_acc st) i = Some a -> a_expire a > 0 -> a_expired a = true ->
  nth_error (st_acc st') i = Some a /\ forall h effs e, In (h, effs) l -> In e effs -> of_stanza e <> 1 + Z.of_nat i.
Proof.
  intros HO CO OA HI. revert CO OA. induction HI as [st|st en p effs st1 l st2 E HI IH|st acc l st2 HI IH|st d i0 now k acc l st2 HI IH]; intros CO OA N X1 X2.
  - split; [exact N|intros h effs e []].
  - inversion OA as [|? ? (en' & p' & Q & PO) OA']; subst. cbn [fst] in Q. injection Q as <- <-.
    pose proof (incoming_stanzas _ _ _ _ _ _ _ _ E) as FA.
    assert (N1 : nth_error (st_acc st1) i = Some a).
    { clear -FA N X1 X2. revert i N. induction FA as [|b b' l l' Q F IH]; intros [|i] N; cbn in *; try discriminate; auto.
      injection N as ->. destruct Q as [->|(-> & _ & _ & _)]; auto. f_equal. destruct a. cbn in X2. subst. reflexivity. }
    destruct IH as [N2 K]; auto. { eapply config_step; eauto. }
    split; auto. intros h effs0 e [Q|I] IE; [|eapply K; eauto]. injection Q as <- <-.
    intro NU. destruct (authorized _ _ _ _ _ _ _ _ _ HO PO CO E IE) as (data & fwd & j & b & _ & _ & _ & NB & LE).
    pose proof (lets_number _ _ _ _ _ _ _ _ _ _ LE) as LN. assert (j = i) by lia. subst j. rewrite N in NB. injection NB as <-.
    destruct LE as (_ & NX & _). apply NX. split; auto.
  - inversion OA as [|? ? (en' & p' & Q & PO) OA']; subst. discriminate.
  - inversion OA as [|? ? (en' & p' & Q & PO) OA']; subst. discriminate.
Qed.

(** ** Packets that are not acted upon *)
Lemma act_nothing cf now a k d cy fl cy' : act cf now a k d cy = Ok (fl, [], cy') -> cy' = cy.
Proof.
  unfold act. destruct (a_cycle a) as [cc|].
  - unfold cmd_cycle_open. destruct (build_cmd d (cc_open cc) (cc_timer cc)) as [[o|]|]; [| |discriminate].
    + destruct (cc_do_close cc); [|intro E; discriminate]. destruct (build_cmd d (cc_close cc) (cc_timer cc)) as [[c|]|]; discriminate.
    + intro E. injection E as <- <-. reflexivity.
  - destruct (d_type d =? FKO_COMMAND_MSG).
    + destruct (process_cmd_msg cf a k d) as [[e|]|]; try discriminate. intro E. injection E as <- <-. reflexivity.
    + destruct (negb _); [intro E; injection E as <- <-; reflexivity|]. destruct (cf_test cf); [intro E; injection E as <- <-; reflexivity|discriminate].
Qed.
Lemma step_nothing H G cf en p data fwd raw a k added rp cy fl a' added' rp' cy' :
  step H G cf en p data fwd raw a k added rp cy = Ok (fl, [], a', added', rp', cy') -> cy' = cy.
Proof.
  intro E. apply step_cases in E as [_ [[_ ->]|(d & _ & _ & _ & A)]]; auto. eapply act_nothing; eauto.
Qed.
Lemma loop_nothing H G cf en p data fwd raw : forall l k added rp cy l' rp' cy',
  stanza_loop H G cf en p data fwd raw l k added rp cy = Ok ([], l', rp', cy') -> cy' = cy.
Proof.
  induction l as [|a r IH]; intros k added rp cy l' rp' cy' E.
  - cbn [stanza_loop] in E. injection E as <- <- <-. reflexivity.
  - rewrite loop_cons in E. destruct (step H G cf en p data fwd raw a k added rp cy) as [[[[[[fl eff1] a1] ad1] rp1] cy1]|] eqn:ST; [|discriminate]. destruct fl.
    + destruct (stanza_loop H G cf en p data fwd raw r (k + 1) ad1 rp1 cy1) as [[[[eff2 r2] rp2] cy2]|] eqn:L2; [|discriminate].
      injection E as E <- <- <-. apply app_eq_nil in E as [-> ->]. apply step_nothing in ST. subst. eapply IH; eauto.
    + injection E as -> <- <- <-. eapply step_nothing; eauto.
Qed.
Lemma nothing_done H G cf en p st st' : incoming_spa H G cf en p st = Ok ([], st') ->
  st_cycles st' = st_cycles st /\ Forall2 same_stanza (st_acc st) (st_acc st').
Proof.
  intro E. split.
  - destruct (incoming_cases _ _ _ _ _ _ _ _ E) as [[_ ->]|(data & fwd & raw & acc' & rp' & cy' & PP & TR & L & ->)]; auto. cbn [st_cycles]. eapply loop_nothing; eauto.
  - apply incoming_stanzas in E. induction E as [|a a' l l' Q F IH]; constructor; auto. destruct Q as [->|(-> & _)]; [left|right]; auto.
Qed.

(** ** Altered packets *)
Lemma opens_accepts H G a data m : opens H G a data m -> a_hmac_key a <> None -> a_hmac_key a <> Some [] ->
  exists mode dk h, fko_new_with_data H (Some data) dk mode (a_hmac_key a) (a_hmac_type a) = Ok (FKO_SUCCESS, h) /\
    (mode = a_mode a \/ (mode = 7 /\ 400 <= zlen data)).
Proof.
  intros O N1 N2. destruct O as [((_ & _ & k & h & _ & E & _) & _)|[_ (_ & _ & _ & L & (h & E) & _)]]; do 3 eexists; (split; [exact E|auto]).
Qed.
Lemma unprefixed_data cf p data mode : ~ is_http cf p -> carries cf p data -> unprefixed p -> packet_ok p ->
  (mode = 7 -> 400 < zlen data) -> is_prefix (prefix_of mode) data = false.
Proof.
  intros NH [[Q _]|[_ ->]] (U1 & U2) PO L; [contradiction|]. pose proof (payload_len p PO) as PL.
  destruct (is_prefix (prefix_of mode) (payload p)) eqn:E; auto. exfalso. apply is_prefix_app in E as [r E]. unfold prefix_of in E.
  destruct (Z.eqb_spec mode 7) as [->|N].
  - apply (U2 ltac:(specialize (L eq_refl); lia) r). exact E.
  - apply (U1 r). exact E.
Qed.
Lemma altered H a d1 d2 m1 m2 hk k1 k2 h1 h2 : hashes_ok H -> a_hmac_key a = Some hk -> hk <> [] ->
  fko_new_with_data H (Some d1) k1 m1 (Some hk) (a_hmac_type a) = Ok (FKO_SUCCESS, h1) ->
  fko_new_with_data H (Some d2) k2 m2 (Some hk) (a_hmac_type a) = Ok (FKO_SUCCESS, h2) ->
  is_prefix (prefix_of m1) d1 = false -> is_prefix (prefix_of m2) d2 = false -> d1 <> d2 ->
  exists h t1 t2, hash_number H (a_hmac_type a) h /\ t1 <> t2 /\ sealed h (hash_block (a_hmac_type a)) hk t1 d1 /\ sealed h (hash_block (a_hmac_type a)) hk t2 d2.
Proof.
  intros OK HK NE A1 A2 N1 N2 D. apply accepted_authentic in A1 as (h & b1 & HN & L1 & E1); auto. apply accepted_authentic in A2 as (h' & b2 & HN' & L2 & E2); auto.
  assert (h' = h) by (apply hash_of_number in HN, HN'; congruence). subst h'.
  assert (W : forall mode b d, is_prefix (prefix_of mode) d = false -> 36 <= zlen b -> (exists r, d = b ++ r) -> with_prefix mode b = prefix_of mode ++ b).
  { intros mode b d N L (r & ->). pose proof (prefix_of_len mode). rewrite body_prefix in N by lia. unfold with_prefix. rewrite N. reflexivity. }
  rewrite (W m1 b1 d1) in E1 by eauto. rewrite (W m2 b2 d2) in E2 by eauto.
  exists h, (prefix_of m1 ++ b1), (prefix_of m2 ++ b2). split; auto. split; [|split; [exists b1, (prefix_of m1); auto|exists b2, (prefix_of m2); auto]].
  intro Q. rewrite Q in E1. assert (b1 <> b2) by congruence. unfold prefix_of in Q. destruct (m1 =? 7), (m2 =? 7); try (apply app_inv_head in Q; contradiction); discriminate.
Qed.
Lemma altered_packets H G cf now1 now2 a p1 p2 d1 d2 f1 f2 k1 k2 e1 e2 hk : hashes_ok H -> a_hmac_key a = Some hk -> hk <> [] -> a_mode a <> 7 ->
  packet_ok p1 -> packet_ok p2 -> ~ is_http cf p1 -> ~ is_http cf p2 -> carries cf p1 d1 -> carries cf p2 d2 -> unprefixed p1 -> unprefixed p2 ->
  zlen d1 <> 400 -> zlen d2 <> 400 -> lets H G cf now1 p1 f1 d1 a k1 e1 -> lets H G cf now2 p2 f2 d2 a k2 e2 -> d1 <> d2 ->
  exists h t1 t2, hash_number H (a_hmac_type a) h /\ t1 <> t2 /\ sealed h (hash_block (a_hmac_type a)) hk t1 d1 /\ sealed h (hash_block (a_hmac_type a)) hk t2 d2.
Proof.
  intros HO HK NE NM PO1 PO2 NH1 NH2 C1 C2 U1 U2 N1 N2 (_ & _ & m1 & x1 & O1 & _) (_ & _ & m2 & x2 & O2 & _) D.
  apply opens_accepts in O1 as (mo1 & dk1 & h1 & A1 & M1); [|congruence|congruence]. apply opens_accepts in O2 as (mo2 & dk2 & h2 & A2 & M2); [|congruence|congruence].
  rewrite HK in A1, A2. eapply altered; eauto.
  - apply (unprefixed_data cf p1); auto. intros ->. destruct M1 as [M1|[_ M1]]; [congruence|lia].
  - apply (unprefixed_data cf p2); auto. intros ->. destruct M2 as [M2|[_ M2]]; [congruence|lia].
Qed.

(** ** The replay cache of a packet that is not acted upon *)
Lemma step_unrecorded H G cf en p data fwd raw a k added rp cy fl eff a' added' rp' cy' : raw = None \/ cf_test cf = true ->
  step H G cf en p data fwd raw a k added rp cy = Ok (fl, eff, a', added', rp', cy') -> rp' = rp.
Proof.
  intro R. assert (NR : forall x y, note_replay cf en p raw x y = (true, x, y)). { intros x y. unfold note_replay. destruct R as [-> | ->]; [reflexivity|]. destruct raw; reflexivity. }
  unfold step. destruct (negb (src_dst_check a p)). { intro E; injection E as <- <- <- <- <- <-. reflexivity. }
  destruct (check_stanza_expiration (e_now en) a) as [live a1]. destruct (negb live). { intro E; injection E as <- <- <- <- <- <-. reflexivity. }
  destruct (decrypt_packet H G a1 data) as [[[c sg]|]|]; [| |discriminate].
  2:{ intro E; injection E as <- <- <- <- <- <-. reflexivity. }
  rewrite NR. cbn [negb]. destruct (handle_gpg_sigs a1 (encryption_type (Some data)) c sg) as [[|]|]; [| |discriminate].
  2:{ intro E; injection E as <- <- <- <- <- <-. reflexivity. }
  destruct (checks cf (e_now en) p fwd a1 c) as [[| |d]|]; [| | |discriminate].
  1,2: intro E; injection E as <- <- <- <- <- <-; reflexivity.
  destruct (act cf (e_now en) a1 k d cy) as [[[fl1 eff1] cy1]|]; [|discriminate].
  intro E; injection E as <- <- <- <- <- <-; reflexivity.
Qed.
Lemma loop_unrecorded H G cf en p data fwd raw : raw = None \/ cf_test cf = true -> forall l k added rp cy eff l' rp' cy',
  stanza_loop H G cf en p data fwd raw l k added rp cy = Ok (eff, l', rp', cy') -> rp' = rp.
Proof.
  intro R. induction l as [|a r IH]; intros k added rp cy eff l' rp' cy' E.
  - cbn [stanza_loop] in E. injection E as <- <- <- <-. reflexivity.
  - rewrite loop_cons in E. destruct (step H G cf en p data fwd raw a k added rp cy) as [[[[[[fl eff1] a1] ad1] rp1] cy1]|] eqn:ST; [|discriminate].
    apply step_unrecorded in ST; auto. destruct fl.
    + destruct (stanza_loop H G cf en p data fwd raw r (k + 1) ad1 rp1 cy1) as [[[[eff2 r2] rp2] cy2]|] eqn:L2; [|discriminate].
      injection E as <- <- <- <-. apply IH in L2. congruence.
    + injection E as <- <- <- <-. exact ST.
Qed.
Lemma classic_carries cf p : packet_ok p -> exists data, carries cf p data.
Proof.
  intro PO. destruct (yes (cf_http cf) && bseq (map tolower (ztake 5 (cstr (k_buf p)))) ($ "get /")) eqn:HT.
  - apply http_iff in HT; auto. pose proof HT as (_ & g & r & E & LG). destruct (http_loop_spec (length r) r 0 (le_n _)) as (v & b & R & NB & K).
    exists (map url_back v). left. split; auto. exists v. split; auto. exists g, b. rewrite <- R. split; auto. split; auto. split; auto.
    destruct K as [[K _]|(c & w & -> & BC & _)]; [left|right; eauto]. rewrite R, app_length in K. destruct b; auto. cbn in K. lia.
  - exists (payload p). right. split; auto. intro Q. apply http_iff in Q; auto. congruence.
Qed.
Lemma replay_kept H G cf en p st effs st' : hashes_ok H -> packet_ok p -> incoming_spa H G cf en p st = Ok (effs, st') ->
  exists data new, carries cf p data /\ fst (st_replay st') = new ++ fst (st_replay st) /\
    Forall (fun c => c = new_element (packet_digest H data) (k_info p) (e_now en)) new /\
    (snd (st_replay st') = snd (st_replay st) \/
     st_replay st' = happen (st_replay st) (Recorded (packet_digest H data) (k_info p) (e_now en))).
Proof.
  intros HO PO E. destruct (classic_carries cf p PO) as [data CA].
  assert (SAME : st_replay st' = st_replay st -> exists data new, carries cf p data /\ fst (st_replay st') = new ++ fst (st_replay st) /\
    Forall (fun c => c = new_element (packet_digest H data) (k_info p) (e_now en)) new /\
    (snd (st_replay st') = snd (st_replay st) \/
     st_replay st' = happen (st_replay st) (Recorded (packet_digest H data) (k_info p) (e_now en)))).
  { intros ->. exists data, []. auto. }
  assert (T : cf_test cf = true \/ cf_test cf = false) by (destruct (cf_test cf); auto).
  destruct (incoming_cases _ _ _ _ _ _ _ _ E) as [[_ ->]|(data' & fwd & raw & acc' & rp' & cy' & PP & TR & L & ->)]; [apply SAME; reflexivity|].
  destruct T as [T|T]. { apply SAME. eapply loop_unrecorded; eauto. }
  destruct TR as [(Y & dg & -> & RD & IR)|[_ ->]]; [|apply SAME; eapply loop_unrecorded; eauto].
  destruct (incoming_replay _ _ _ _ _ _ _ _ HO PO T ltac:(apply yes_on; exact Y) E) as [[Q _]|(d & C & _ & [[_ Q]|[_ (n & Q)]])]; [apply SAME; exact Q| |].
  - exists d, [new_element (packet_digest H d) (k_info p) (e_now en)]. split; auto. rewrite Q. split; [|split; [constructor; auto|right; reflexivity]].
    unfold happen, add_replay. destruct (st_replay st). reflexivity.
  - exists d, (repeat (new_element (packet_digest H d) (k_info p) (e_now en)) n). rewrite Q. cbn [fst snd]. split; auto. split; auto. split; [|left; reflexivity].
    clear. induction n; constructor; auto.
Qed.
