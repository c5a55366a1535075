(** Proofs: digests and histories. *)
From Verif Require Import Bytes P_bytes M_base64 S_base64 S_text S_codec S_cipher S_ctx S_access S_replay S_cycle M_util M_message M_codec M_cipher M_ctx M_access
  M_replay M_cycle M_incoming S_incoming P_base64 P_util P_util2 P_codec P_access P_replay P_ctx P_ctx2 P_ctx4 P_ctx6 P_incoming P_incoming2 P_incoming3 P_incoming4
  P_incoming5 P_incoming6.
From Coq Require Import Init.Byte List ZArith Bool Lia.
Import ListNotations.
Open Scope Z_scope.

(** ** The digest of a packet *)
Lemma digest_ok H data : hashes_ok H -> digest43 (packet_digest H data).
Proof.
  intro HO. unfold packet_digest. rewrite <- (digest_b64_text (h_sha256 H) data). split.
  - rewrite (digest_b64_len H 3 (h_sha256 H)) by (auto; constructor). reflexivity.
  - apply b64_stripped_chars.
Qed.
Lemma raw_digest H data : hashes_ok H ->
  get_raw_digest H data = (if (36 <=? zlen data) && (zlen data <? 1500) then Ok (Some (packet_digest H data)) else Ok None) \/
  get_raw_digest H data = Ok None.
Proof.
  intro HO. unfold get_raw_digest. destruct (new_cases H data None FKO_ENC_MODE_CBC None 0) as [(e & N & E)|(R & MR & TR & E)]; rewrite E.
  - right. destruct e; try reflexivity.
  - cbn [negb ok]. unfold received_ctx. left. replace (36 <=? zlen data) with true by (symmetry; apply Z.leb_le; lia).
    replace (zlen data <? 1500) with true by (symmetry; apply Z.ltb_lt; lia). cbn [andb].
    unfold set_raw_digest_type. change ((FKO_DEFAULT_DIGEST <? 1) || (FKO_DEFAULT_DIGEST >=? FKO_LAST_DIGEST_TYPE)) with false. cbn iota beta.
    cbn [ok negb]. ctx_simp. change (FKO_DEFAULT_DIGEST =? FKO_DEFAULT_DIGEST) with true. cbn [negb]. unfold set_raw_spa_digest. ctx_simp.
    unfold set_digest, strnlen, MAX_SPA_ENCODED_MSG_SIZE. replace (Z.min (zlen data) 1500 =? 1500) with false by (symmetry; apply Z.eqb_neq; lia).
    change (hash_of H FKO_DEFAULT_DIGEST) with (Some (h_sha256 H)). cbn iota beta. cbn [ok negb]. ctx_simp. rewrite digest_b64_text. reflexivity.
Qed.
Lemma raw_digest_some H data dg : hashes_ok H -> get_raw_digest H data = Ok (Some dg) -> dg = packet_digest H data.
Proof.
  intros HO E. destruct (raw_digest H data HO) as [Q|Q]; rewrite Q in E; [|discriminate].
  destruct (_ && _); congruence.
Qed.

(** ** What the loop does to the replay cache *)
Section Replay.
Variables (H : hashes) (G : gpg) (cf : conf) (en : env) (p : pkt_info) (data fwd dg : bytes).
Hypothesis NT : cf_test cf = false.

Lemma note_cases added rp : exists okd added' rp', note_replay cf en p (Some dg) added rp = (okd, added', rp') /\
  ((added = true /\ okd = true /\ added' = true /\ rp' = rp) \/
   (added = false /\ e_writable en = true /\ okd = true /\ added' = true /\ rp' = snd (add_replay true dg p (e_now en) rp)) \/
   (added = false /\ e_writable en = false /\ okd = false /\ added' = false /\ rp' = (new_element dg p (e_now en) :: fst rp, snd rp))).
Proof.
  unfold note_replay. rewrite NT. cbn [negb andb]. destruct added; cbn [negb]; [exists true, true, rp; split; [reflexivity|left; auto]|].
  destruct rp as [l f]. unfold add_replay. destruct (e_writable en).
  - exists true, true. eexists. split; [reflexivity|]. right. left. auto.
  - exists false, false. eexists. split; [reflexivity|]. right. right. auto.
Qed.
Lemma step_replay a k added rp cy fl eff a' added' rp' cy' :
  step H G cf en p data fwd (Some dg) a k added rp cy = Ok (fl, eff, a', added', rp', cy') ->
  (rp' = rp /\ added' = added /\ (eff <> [] -> added' = true)) \/
  (added = false /\ e_writable en = true /\ added' = true /\ rp' = snd (add_replay true dg p (e_now en) rp)) \/
  (added = false /\ added' = false /\ e_writable en = false /\ eff = [] /\ rp' = (new_element dg p (e_now en) :: fst rp, snd rp)).
Proof.
  unfold step. destruct (negb (src_dst_check a p)). { intro E; injection E as <- <- <- <- <- <-. left. repeat split; auto; congruence. }
  destruct (check_stanza_expiration (e_now en) a) as [live a1]. destruct (negb live). { intro E; injection E as <- <- <- <- <- <-. left. repeat split; auto; congruence. }
  destruct (decrypt_packet H G a1 data) as [[[c sg]|]|]; [| |discriminate].
  2:{ intro E; injection E as <- <- <- <- <- <-. left. repeat split; auto; congruence. }
  destruct (note_cases added rp) as (okd & ad1 & rp1 & -> & K).
  assert (KK : forall (fl1 : flow) eff1 (a2 : stanza) (cy2 : list cycle), Ok (fl1, eff1, a2, ad1, rp1, cy2) = Ok (fl, eff, a', added', rp', cy') -> (okd = true \/ eff = []) ->
     (rp' = rp /\ added' = added /\ (eff <> [] -> added' = true)) \/
     (added = false /\ e_writable en = true /\ added' = true /\ rp' = snd (add_replay true dg p (e_now en) rp)) \/
     (added = false /\ added' = false /\ e_writable en = false /\ eff = [] /\ rp' = (new_element dg p (e_now en) :: fst rp, snd rp))).
  { intros fl1 eff1 a2 cy2 E OE. injection E as -> -> -> <- <- ->. destruct K as [(-> & -> & -> & ->)|[(-> & W & -> & -> & ->)|(-> & W & -> & -> & ->)]].
    - left. auto.
    - right. left. auto.
    - right. right. destruct OE as [OE|OE]; [discriminate OE|auto]. }
  destruct (negb okd) eqn:OK. { intro E. pose proof E as E2. injection E2 as <- <- _ _ _ _. apply (KK _ _ _ _ E). auto. }
  assert (okd = true) by (destruct okd; auto; discriminate). subst okd.
  destruct (handle_gpg_sigs a1 (encryption_type (Some data)) c sg) as [[|]|]; [| |discriminate].
  2:{ intro E. pose proof E as E2. injection E2 as <- <- _ _ _ _. apply (KK _ _ _ _ E). auto. }
  destruct (checks cf (e_now en) p fwd a1 c) as [[| |d]|]; [| | |discriminate].
  1,2: intro E; pose proof E as E2; injection E2 as <- <- _ _ _ _; apply (KK _ _ _ _ E); auto.
  destruct (act cf (e_now en) a1 k d cy) as [[[fl1 eff1] cy1]|]; [|discriminate].
  intro E; pose proof E as E2; injection E2 as <- <- _ _ _ _; apply (KK _ _ _ _ E); auto.
Qed.
Lemma loop_replay : forall l k added rp cy eff l' rp' cy',
  stanza_loop H G cf en p data fwd (Some dg) l k added rp cy = Ok (eff, l', rp', cy') ->
  (rp' = rp /\ (eff <> [] -> added = true)) \/
  (added = false /\ e_writable en = true /\ rp' = snd (add_replay true dg p (e_now en) rp)) \/
  (added = false /\ e_writable en = false /\ eff = [] /\ exists n, rp' = (repeat (new_element dg p (e_now en)) n ++ fst rp, snd rp)).
Proof.
  induction l as [|a r IH]; intros k added rp cy eff l' rp' cy' E.
  - cbn [stanza_loop] in E. injection E as <- <- <- <-. left. split; auto; congruence.
  - rewrite loop_cons in E. destruct (step H G cf en p data fwd (Some dg) a k added rp cy) as [[[[[[fl eff1] a1] ad1] rp1] cy1]|] eqn:ST; [|discriminate].
    pose proof (step_replay _ _ _ _ _ _ _ _ _ _ _ ST) as SR. destruct fl.
    + destruct (stanza_loop H G cf en p data fwd (Some dg) r (k + 1) ad1 rp1 cy1) as [[[[eff2 r2] rp2] cy2]|] eqn:L2; [|discriminate].
      injection E as <- <- <- <-. specialize (IH _ _ _ _ _ _ _ _ L2).
      destruct SR as [(-> & -> & NE)|[(-> & W & -> & ->)|(-> & -> & W & -> & ->)]].
      * destruct IH as [(-> & N2)|[(-> & W & ->)|(-> & W & -> & n & ->)]].
        -- left. split; auto. intro Q. destruct eff1; [apply N2; auto|apply NE; discriminate].
        -- auto.
        -- right. right. destruct eff1; [eauto 10|]. specialize (NE ltac:(discriminate)). discriminate.
      * destruct IH as [(-> & N2)|[(Q & _)|(Q & _)]]; try discriminate. auto.
      * destruct IH as [(-> & N2)|[(_ & W' & _)|(_ & _ & -> & n & ->)]]; [|congruence|].
        -- right. right. split; auto. split; auto. split; [destruct eff2; auto; specialize (N2 ltac:(discriminate)); discriminate|]. exists 1%nat. reflexivity.
        -- right. right. split; auto. split; auto. split; auto. exists (n + 1)%nat. rewrite repeat_app, <- app_assoc. reflexivity.
    + injection E as <- <- <- <-. destruct SR as [(-> & -> & NE)|[(-> & W & -> & ->)|(-> & -> & W & -> & ->)]]; auto.
      right. right. split; auto. split; auto. split; auto. exists 1%nat. reflexivity.
Qed.
End Replay.

(** ** One packet *)
Lemma incoming_replay H G cf en p st effs st' : hashes_ok H -> packet_ok p -> cf_test cf = false -> on (cf_digest_persistence cf) ->
  incoming_spa H G cf en p st = Ok (effs, st') ->
  (st_replay st' = st_replay st /\ effs = []) \/
  exists data, carries cf p data /\ is_replay (fst (st_replay st)) (packet_digest H data) = Ok false /\
    ((e_writable en = true /\ st_replay st' = happen (st_replay st) (Recorded (packet_digest H data) (k_info p) (e_now en))) \/
     (effs = [] /\ exists n, st_replay st' = (repeat (new_element (packet_digest H data) (k_info p) (e_now en)) n ++ fst (st_replay st), snd (st_replay st)))).
Proof.
  intros HO PO NT ON E. destruct (incoming_cases _ _ _ _ _ _ _ _ E) as [[-> ->]|(data & fwd & raw & acc' & rp' & cy' & PP & TR & L & ->)]; [auto|].
  apply yes_on in ON. destruct TR as [(_ & dg & -> & RD & IR)|[Q _]]; [|congruence].
  apply raw_digest_some in RD; auto. subst dg. cbn [st_replay].
  destruct (loop_replay _ _ _ _ _ _ _ _ NT _ _ _ _ _ _ _ _ _ L) as [(-> & NE)|[(_ & W & ->)|(_ & W & -> & n & ->)]].
  - left. split; auto. destruct effs; auto. specialize (NE ltac:(discriminate)). discriminate.
  - right. exists data. split; [apply (pre_sound cf p data fwd PO PP)|]. split; auto.
  - right. exists data. split; [apply (pre_sound cf p data fwd PO PP)|]. split; auto. right. eauto.
Qed.
Lemma incoming_known H G cf en p st effs st' data : hashes_ok H -> packet_ok p -> on (cf_digest_persistence cf) ->
  incoming_spa H G cf en p st = Ok (effs, st') -> (forall data', carries cf p data' -> data' = data) ->
  bufs_ok (fst (st_replay st)) -> has (fst (st_replay st)) (packet_digest H data) -> effs = [] /\ st' = st.
Proof.
  intros HO PO ON E CA B HA. destruct (incoming_cases _ _ _ _ _ _ _ _ E) as [Q|(data' & fwd & raw & acc' & rp' & cy' & PP & TR & L & ->)]; [auto|].
  exfalso. apply yes_on in ON. destruct TR as [(_ & dg & -> & RD & IR)|[Q _]]; [|congruence].
  apply raw_digest_some in RD; auto. destruct (pre_sound cf p data' fwd PO PP) as [C _]. rewrite (CA _ C) in RD. subst dg.
  apply has_replay in HA; auto; [|apply digest_ok; auto]. congruence.
Qed.
Lemma carries_fun cf p d d' : carries cf p d -> carries cf p d' -> d = d'.
Proof.
  intros [[H1 (path & P & ->)]|[N ->]] [[H2 (path' & P' & ->)]|[N' ->]]; try tauto. f_equal.
  destruct P as (g & r & E & L & NB & RB), P' as (g' & r' & E' & L' & NB' & RB'). rewrite E in E'.
  assert (LG : forall x, lower x = $ "get /" -> zlen x = 5).
  { intros x Q. pose proof (f_equal zlen Q) as K. rewrite lower_tolower in K. unfold zlen in *. rewrite map_length in K. exact K. }
  destruct (app_eq_len _ _ _ _ E') as [-> E2]; [rewrite (LG g), (LG g'); auto|]. clear -E2 NB NB' RB RB'.
  revert path' E2 NB'. induction path as [|c v IH]; intros [|c' v'] E NB'; auto.
  - cbn in E. subst r. destruct RB as [Q|(c & w & Q & BC)]; [discriminate|]. injection Q as -> _. exfalso. apply NB'. left; auto.
  - cbn in E. subst r'. destruct RB' as [Q|(c2 & w & Q & BC)]; [discriminate|]. injection Q as -> _. exfalso. apply NB. left; auto.
  - cbn in E. injection E as <- E. f_equal. apply IH; auto.
Qed.

(** ** Histories *)
Definition kept (st : cache * file) (torn : bool) (l : list bytes) : Prop := covered st torn l /\ bufs_ok (fst st).
Lemma bufs_more d i now n l : digest43 d -> bufs_ok l -> bufs_ok (repeat (new_element d i now) n ++ l).
Proof.
  intros D B. induction n as [|n IH]; [exact B|]. cbn [repeat app]. constructor; auto. apply new_buf; auto.
Qed.
Lemma covered_more st torn l cs : covered st torn l -> covered (cs ++ fst st, snd st) torn l.
Proof.
  intros (s & ES & EN & F). exists s. split; [exact ES|]. split; auto. cbn [fst]. eapply Forall_impl; [|exact F]. intros d [HA SD]. split; auto. apply has_app; auto.
Qed.
Lemma happening_kept H G cf en p st effs st' torn l : hashes_ok H -> packet_ok p -> cf_test cf = false -> on (cf_digest_persistence cf) ->
  incoming_spa H G cf en p st = Ok (effs, st') -> kept (st_replay st) torn l ->
  kept (st_replay st') torn l.
Proof.
  intros HO PO NT ON E [C B]. destruct (incoming_replay _ _ _ _ _ _ _ _ HO PO NT ON E) as [[-> _]|(data & CA & IR & [[W ->]|[_ [n ->]]])].
  - split; auto.
  - assert (EO : event_ok (Recorded (packet_digest H data) (k_info p) (e_now en))) by (split; [apply digest_ok; auto|split; apply PO]).
    split; [|apply happen_bufs; auto]. pose proof (covered_step _ _ _ _ EO C) as CS. cbv beta iota in CS.
    apply (covered_weaken _ _ _ torn l CS); [auto|]. intros x I. apply in_or_app. auto.
  - split; [apply covered_more; auto|]. cbn [fst]. apply bufs_more; auto. apply digest_ok; auto.
Qed.
Lemma history_kept H G cf st l st' torn ds : hashes_ok H -> cf_test cf = false -> on (cf_digest_persistence cf) ->
  history H G cf st l st' -> Forall (fun x => happening_ok (fst x)) l -> kept (st_replay st) torn ds ->
  exists torn', kept (st_replay st') torn' ds /\ (forallb (fun x => negb (is_death (fst x))) l = true -> torn' = torn).
Proof.
  intros HO NT ON HI. revert torn. induction HI as [st|st en p effs st1 l st2 E HI IH|st acc l st2 HI IH|st d i now k acc l st2 HI IH]; intros torn F K.
  - exists torn. auto.
  - inversion F; subst. cbn [fst happening_ok] in *. destruct (IH torn) as (torn' & K' & T); auto. { eapply happening_kept; eauto. }
    exists torn'. split; auto.
  - inversion F; subst. destruct (IH torn) as (torn' & K' & T); auto.
    { cbn [st_replay]. destruct K as [C B]. split; [apply (covered_step _ _ _ Restarted I C)|apply happen_bufs; [exact I|auto]]. }
    exists torn'. split; auto.
  - inversion F; subst. cbn [fst happening_ok] in *. destruct (IH (torn || negb (Nat.eqb k 0))) as (torn' & K' & T); auto.
    { cbn [st_replay]. destruct K as [C B]. split; [apply (covered_step _ _ _ (Killed d i now k)); auto|apply happen_bufs; auto]. }
    exists torn'. split; auto. cbn [forallb fst is_death negb andb]. discriminate.
Qed.
Lemma no_replay H G cf acc f before en p effs st1 st2 after st3 en' p' effs' st4 data : hashes_ok H -> cf_test cf = false -> on (cf_digest_persistence cf) ->
  ends_torn f = false ->
  Forall (fun x => happening_ok (fst x)) before -> forallb (fun x => negb (is_death (fst x))) before = true ->
  Forall (fun x => happening_ok (fst x)) after -> packet_ok p -> packet_ok p' ->
  history H G cf (mkSt acc (cache_init f) []) before st1 ->
  incoming_spa H G cf en p st1 = Ok (effs, st2) -> effs <> [] -> carries cf p data ->
  history H G cf st2 after st3 ->
  incoming_spa H G cf en' p' st3 = Ok (effs', st4) -> carries cf p' data -> effs' = [] /\ st4 = st3.
Proof.
  intros HO NT ON TF FB DB FA PO PO' HB E NE CA HA E' CA'.
  assert (K0 : kept (cache_init f) false []). { split; [rewrite <- TF; apply start_covered|apply cache_init_bufs]. }
  destruct (history_kept _ _ _ _ _ _ false [] HO NT ON HB FB K0) as (torn & K1 & T). specialize (T DB). subst torn.
  assert (K2 : kept (st_replay st2) false [packet_digest H data]).
  { destruct (incoming_replay _ _ _ _ _ _ _ _ HO PO NT ON E) as [[_ Q]|(data' & CD & IR & [[W ->]|[Q _]])]; try congruence.
    rewrite (carries_fun _ _ _ _ CD CA) in *. destruct K1 as [C B].
    assert (EO : event_ok (Recorded (packet_digest H data) (k_info p) (e_now en))) by (split; [apply digest_ok; auto|split; apply PO]).
    split; [apply (covered_step _ _ _ _ EO C)|apply happen_bufs; auto]. }
  destruct (history_kept _ _ _ _ _ _ false _ HO NT ON HA FA K2) as (torn' & [C3 B3] & _).
  destruct C3 as (s & _ & _ & FF). inversion FF as [|? ? [HH _] _]; subst.
  eapply incoming_known; eauto. intros d' C. eapply carries_fun; eauto.
Qed.
