(** Proofs about the digest data base. *)
From Verif Require Import Bytes P_bytes M_base64 S_base64 S_text S_codec S_cipher S_ctx S_access S_replay S_cycle M_util M_message M_codec M_cipher M_ctx M_access
  M_replay M_cycle M_incoming S_incoming P_base64 P_util P_util2 P_codec P_access P_replay P_ctx P_ctx2 P_ctx4 P_ctx6 P_incoming P_incoming2 P_incoming3 P_incoming4
  P_incoming5 P_incoming6 P_incoming7 P_incoming8 M_dbm S_dbm.
From Coq Require Import Init.Byte List ZArith Bool Lia.
Import ListNotations.
Open Scope Z_scope.

(** ** The data base *)
Lemma lookup_in b d e : lookup b d = Some e -> In (d, e) b.
Proof.
  induction b as [|[k x] r IH]; cbn [lookup]; [discriminate|]. destruct (bseq k d) eqn:Q.
  - apply bseq_eq in Q. subst k. intro E. injection E as ->. left. reflexivity.
  - intro E. right. auto.
Qed.
Lemma lookup_none b d : lookup b d = None <-> unfiled b d.
Proof.
  unfold unfiled. induction b as [|[k x] r IH]; cbn [lookup].
  - split; auto. intros _ (e & []).
  - destruct (bseq k d) eqn:Q.
    + apply bseq_eq in Q. subst k. split; [discriminate|]. intro N. exfalso. apply N. exists x. left. reflexivity.
    + rewrite IH. split; intros N (e & I); apply N; [|exists e; right; auto]. destruct I as [I|I]; [|eauto].
      injection I as -> ->. rewrite bseq_refl in Q. discriminate.
Qed.
Lemma lookup_app b c d : lookup (b ++ c) d = match lookup b d with Some e => Some e | None => lookup c d end.
Proof. induction b as [|[k x] r IH]; cbn [lookup app]; [reflexivity|]. destruct (bseq k d); auto. Qed.
Lemma lookup_replace b d e d' : lookup (replace b d e) d' = if bseq d d' then match lookup b d with Some _ => Some e | None => None end else lookup b d'.
Proof.
  induction b as [|[k x] r IH]; cbn [lookup replace]; [destruct (bseq d d'); reflexivity|].
  destruct (bseq k d) eqn:Q; cbn [lookup].
  - apply bseq_eq in Q. subst k. destruct (bseq d d'); reflexivity.
  - rewrite IH. destruct (bseq k d') eqn:Q'.
    + apply bseq_eq in Q'. subst k. destruct (bseq d d') eqn:Q2; [|reflexivity]. apply bseq_eq in Q2. subst d'.
      rewrite bseq_refl in Q. discriminate.
    + reflexivity.
Qed.
Lemma insert_known ft b d e d' : lookup (insert ft b d e) d' =
  match lookup b d' with Some x => Some x | None => if ft_store ft && bseq d d' then Some e else None end.
Proof.
  unfold insert. destruct (ft_store ft); cbn [andb]; [|destruct (lookup b d'); reflexivity].
  destruct (lookup b d) eqn:L.
  - destruct (lookup b d') eqn:L'; [reflexivity|]. destruct (bseq d d') eqn:Q; [|reflexivity]. apply bseq_eq in Q. congruence.
  - rewrite lookup_app. cbn [lookup]. reflexivity.
Qed.
Lemma mark_replayed now e e' : mark now e = Ok e' -> replayed now e e'.
Proof.
  unfold mark. destruct (_ =? _); [discriminate|]. intro E. injection E as <-. unfold replayed. cbn.
  repeat split. replace (en_count e + 1 =? 1) with (en_count e =? 0); [reflexivity|]. destruct (Z.eqb_spec (en_count e) 0), (Z.eqb_spec (en_count e + 1) 1); auto; lia.
Qed.

(** ** The loop over the stanzas *)
Section Loop.
Variables (H : hashes) (G : gpg) (cf : conf) (fts : Z -> fate) (now : Z) (p : pkt_info) (data fwd : bytes) (raw : option bytes).
Definition step_db (a : stanza) (k : Z) (added : bool) (b : base) (cy : list cycle)
  : outcome (flow * list effect * stanza * bool * base * list cycle) :=
  if negb (src_dst_check a p) then Ok (Next, [], a, added, b, cy)
  else let '(live, a) := check_stanza_expiration now a in
  if negb live then Ok (Next, [], a, added, b, cy)
  else match decrypt_packet H G a data with
  | Fault => Fault
  | Ok None => Ok (Next, [], a, added, b, cy)
  | Ok (Some (c, sg)) =>
      let '(okd, added, b) := note_db cf fts p now raw k added b in
      if negb okd then Ok (Next, [], a, added, b, cy)
      else match handle_gpg_sigs a (encryption_type (Some data)) c sg with
      | Fault => Fault
      | Ok false => Ok (Next, [], a, added, b, cy)
      | Ok true =>
          match checks cf now p fwd a c with
          | Fault => Fault
          | Ok Refuse => Ok (Next, [], a, added, b, cy)
          | Ok Abort => Ok (Break, [], a, added, b, cy)
          | Ok (Pass d) =>
              match act cf now a k d cy with
              | Fault => Fault
              | Ok (fl, eff, cy) => Ok (fl, eff, a, added, b, cy)
              end
          end
      end
  end.
Lemma loop_db_cons a r k added b cy :
  stanza_loop_db H G cf fts now p data fwd raw (a :: r) k added b cy =
  match step_db a k added b cy with
  | Fault => Fault
  | Ok (Break, eff, a', added', b', cy') => Ok (eff, a' :: r, b', cy')
  | Ok (Next, eff, a', added', b', cy') =>
      match stanza_loop_db H G cf fts now p data fwd raw r (k + 1) added' b' cy' with
      | Fault => Fault
      | Ok (eff', r', b'', cy'') => Ok (eff ++ eff', a' :: r', b'', cy'')
      end
  end.
Proof.
  cbn [stanza_loop_db]. unfold step_db. destruct (negb (src_dst_check a p)); [reflexivity|].
  destruct (check_stanza_expiration now a) as [live a']. destruct (negb live); [reflexivity|].
  destruct (decrypt_packet H G a' data) as [[[c sg]|]|]; [|reflexivity|reflexivity].
  destruct (note_db cf fts p now raw k added b) as [[okd ad] b1]. destruct (negb okd); [reflexivity|].
  destruct (handle_gpg_sigs a' (encryption_type (Some data)) c sg) as [[|]|]; try reflexivity.
  destruct (checks cf now p fwd a' c) as [[| |d]|]; try reflexivity.
  destruct (act cf now a' k d cy) as [[[[|] eff] cy']|]; reflexivity.
Qed.

(** The step only changes the data base by recording the digest, and has no effect unless that went well. *)
Lemma step_db_cases a k added b cy fl eff a' added' b' cy' :
  step_db a k added b cy = Ok (fl, eff, a', added', b', cy') ->
  (eff = [] /\ added' = added /\ b' = b) \/
  exists okd, note_db cf fts p now raw k added b = (okd, added', b') /\ (eff <> [] -> okd = true).
Proof.
  unfold step_db. destruct (negb (src_dst_check a p)). { intro E; injection E as <- <- <- <- <- <-. auto. }
  destruct (check_stanza_expiration now a) as [live a1]. destruct (negb live). { intro E; injection E as <- <- <- <- <- <-. auto. }
  destruct (decrypt_packet H G a1 data) as [[[c sg]|]|]; [| |discriminate].
  2:{ intro E; injection E as <- <- <- <- <- <-. auto. }
  destruct (note_db cf fts p now raw k added b) as [[okd ad1] b1].
  destruct okd; cbn [negb].
  2:{ intro E; injection E as <- <- <- <- <- <-. right. exists false. split; [reflexivity|congruence]. }
  destruct (handle_gpg_sigs a1 (encryption_type (Some data)) c sg) as [[|]|]; [| |discriminate].
  2:{ intro E; injection E as <- <- <- <- <- <-. right. exists true. auto. }
  destruct (checks cf now p fwd a1 c) as [[| |d]|]; [| | |discriminate].
  1,2: intro E; injection E as <- <- <- <- <- <-; right; exists true; auto.
  destruct (act cf now a1 k d cy) as [[[fl1 eff1] cy1]|]; [|discriminate].
  intro E; injection E as <- <- <- <- <- <-. right. exists true. auto.
Qed.

Lemma note_added k added b okd ad b' dg : raw = Some dg -> cf_test cf = false -> note_db cf fts p now raw k added b = (okd, ad, b') -> okd = true -> ad = true.
Proof.
  intros -> NT. unfold note_db. rewrite NT. destruct added; cbn [negb andb].
  - intro E; injection E as <- <- <-. auto.
  - destruct (add_replay_db (fts k) dg p now b) as [r b1]. intro E; injection E as <- <- <-. auto.
Qed.
Lemma note_stays k b okd ad b' dg : raw = Some dg -> note_db cf fts p now raw k true b = (okd, ad, b') -> ad = true /\ b' = b.
Proof. intros ->. unfold note_db. rewrite andb_false_r. intro E; injection E as <- <- <-. auto. Qed.

Lemma loop_db_inv (P : bool -> base -> Prop) :
  (forall k added b okd ad b', 1 <= k -> P added b -> note_db cf fts p now raw k added b = (okd, ad, b') -> P ad b') ->
  forall l k added b cy eff l' b' cy', 1 <= k ->
  stanza_loop_db H G cf fts now p data fwd raw l k added b cy = Ok (eff, l', b', cy') -> P added b ->
  exists ad, P ad b' /\ (added = true -> (exists dg, raw = Some dg) -> ad = true) /\ (eff <> [] -> (exists dg, raw = Some dg) -> cf_test cf = false -> ad = true).
Proof.
  intro PR. induction l as [|a r IH]; intros k added b cy eff l' b' cy' K E PB.
  - cbn [stanza_loop_db] in E. injection E as <- <- <- <-. exists added. split; [auto|]. split; [auto|congruence].
  - rewrite loop_db_cons in E. destruct (step_db a k added b cy) as [[[[[[fl eff1] a1] ad1] b1] cy1]|] eqn:ST; [|discriminate].
    assert (S1 : P ad1 b1 /\ (added = true -> (exists dg, raw = Some dg) -> ad1 = true) /\ (eff1 <> [] -> (exists dg, raw = Some dg) -> cf_test cf = false -> ad1 = true)).
    { destruct (step_db_cases _ _ _ _ _ _ _ _ _ _ _ ST) as [(-> & -> & ->)|(okd & N & NE)].
      - split; [auto|]. split; [auto|congruence].
      - split; [exact (PR k added b okd ad1 b1 K PB N)|]. split.
        + intros -> (dg & R). eapply note_stays; eauto.
        + intros Q (dg & R) NT. eapply note_added; eauto. }
    destruct S1 as (P1 & A1 & E1). destruct fl.
    + destruct (stanza_loop_db H G cf fts now p data fwd raw r (k + 1) ad1 b1 cy1) as [[[[eff2 r2] b2] cy2]|] eqn:L2; [|discriminate].
      injection E as <- <- <- <-. destruct (IH (k + 1) ad1 b1 cy1 eff2 r2 b2 cy2 ltac:(lia) L2 P1) as (ad & PA & AA & EA).
      exists ad. split; [auto|]. split; [auto|]. intros Q R NT. destruct eff1; [apply EA; auto|]. apply AA; auto. apply E1; auto. discriminate.
    + injection E as <- <- <- <-. exists ad1. auto.
Qed.

(** What the loop does to the data base: nothing, or the digest is added. *)
Lemma loop_db_base l b cy eff l' b' cy' dg : raw = Some dg ->
  stanza_loop_db H G cf fts now p data fwd raw l 1 false b cy = Ok (eff, l', b', cy') ->
  b' = b \/ (lookup b dg = None /\ b' = b ++ [(dg, new_entry p now)]).
Proof.
  intros R E. set (P := fun (ad : bool) b1 => b1 = b \/ (ad = true /\ lookup b dg = None /\ b1 = b ++ [(dg, new_entry p now)])).
  destruct (loop_db_inv P) with (3 := E) as (ad & K & _).
  - intros k added b0 okd ad b1 _ PB N. destruct added; [destruct (note_stays _ _ _ _ _ _ R N) as [-> ->]; exact PB|].
    destruct PB as [->|(Q & _)]; [|discriminate]. subst raw. unfold note_db in N. rewrite andb_true_r in N.
    destruct (cf_test cf); cbn [negb] in N; [injection N as <- <- <-; left; reflexivity|].
    unfold add_replay_db in N. destruct (ft_open (fts k)); cbn [negb] in N; [|injection N as <- <- <-; left; reflexivity].
    destruct (fetch (fts k) b dg); [injection N as <- <- <-; left; reflexivity|].
    injection N as <- <- <-. unfold insert. destruct (ft_store (fts k)); [|left; reflexivity].
    destruct (lookup b dg) eqn:L; [left; reflexivity|]. right. auto.
  - lia.
  - left. reflexivity.
  - destruct K as [K|(_ & K)]; auto.
Qed.
(** If the data base works and something is done, the digest is there. *)
Lemma loop_db_recorded l b cy eff l' b' cy' dg : raw = Some dg -> cf_test cf = false -> (forall k, 1 <= k -> works (fts k)) ->
  stanza_loop_db H G cf fts now p data fwd raw l 1 false b cy = Ok (eff, l', b', cy') -> eff <> [] ->
  lookup b dg = None /\ b' = b ++ [(dg, new_entry p now)].
Proof.
  intros R NT WK E NE. set (P := fun (ad : bool) b1 => (ad = false -> b1 = b) /\ (ad = true -> lookup b dg = None /\ b1 = b ++ [(dg, new_entry p now)])).
  destruct (loop_db_inv P) with (3 := E) as (ad & K & _ & A).
  - intros k added b0 okd ad b1 KP PB N. destruct added; [destruct (note_stays _ _ _ _ _ _ R N) as [-> ->]; exact PB|].
    destruct PB as [PB _]. rewrite (PB eq_refl) in *. subst raw. unfold note_db in N. rewrite NT in N. cbn [negb andb] in N.
    destruct (WK k KP) as (O & RD & S). unfold add_replay_db, fetch, insert in N. rewrite O, RD, S in N. cbn [negb] in N.
    destruct (lookup b dg) eqn:L; injection N as <- <- <-; split; intro; try discriminate; auto.
  - lia.
  - split; [reflexivity|discriminate].
  - apply K. apply A; eauto.
Qed.
(** If the data base cannot be opened, nothing is done. *)
Lemma loop_db_unopened l b cy eff l' b' cy' dg : raw = Some dg -> cf_test cf = false -> (forall k, 1 <= k -> ft_open (fts k) = false) ->
  stanza_loop_db H G cf fts now p data fwd raw l 1 false b cy = Ok (eff, l', b', cy') -> eff = [] /\ b' = b.
Proof.
  intros R NT WK E. set (P := fun (ad : bool) b1 => ad = false /\ b1 = b).
  destruct (loop_db_inv P) with (3 := E) as (ad & [-> K] & _ & A).
  - intros k added b0 okd ad b1 KP [-> ->] N. subst raw. unfold note_db in N. rewrite NT in N. cbn [negb andb] in N.
    unfold add_replay_db in N. rewrite (WK k KP) in N. cbn [negb] in N. injection N as <- <- <-. split; reflexivity.
  - lia.
  - split; reflexivity.
  - split; auto. destruct eff; auto. discriminate A; eauto. discriminate.
Qed.

(** With a data base that works the loop does what it does with the file. *)
Lemma cache_add c b dg i : digest43 dg -> same_digests c b -> lookup b dg = None ->
  same_digests (new_element dg p now :: c) (b ++ [(dg, new_entry i now)]).
Proof.
  intros D (CO & SD) L. destruct (new_buf dg p now D) as [NB NL]. split; [constructor; auto|].
  intros d Dd. unfold filed. rewrite lookup_app. cbn [lookup]. specialize (SD d Dd). unfold filed in SD.
  change (remembered (new_element dg p now :: c) d) with (has (new_element dg p now :: c) d). rewrite has_cons, NB.
  change (has c d) with (remembered c d). rewrite SD. destruct (lookup b d) eqn:Q; [split; eauto|].
  destruct (bseq dg d) eqn:B.
  - apply bseq_eq in B. split; eauto.
  - split.
    + intros [X|[e X]]; [|discriminate]. subst d. rewrite bseq_refl in B. discriminate.
    + intros [e X]. discriminate.
Qed.
Lemma loop_same en (EN : e_now en = now) (EW : e_writable en = true) (WK : forall k, 1 <= k -> works (fts k))
  (RD : forall dg, raw = Some dg -> digest43 dg) :
  forall l k added rp b cy, 1 <= k -> same_digests (fst rp) b -> (forall dg, raw = Some dg -> added = false -> lookup b dg = None) ->
  match stanza_loop H G cf en p data fwd raw l k added rp cy, stanza_loop_db H G cf fts now p data fwd raw l k added b cy with
  | Ok (e1, l1, rp1, c1), Ok (e2, l2, b2, c2) => e1 = e2 /\ l1 = l2 /\ c1 = c2 /\ same_digests (fst rp1) b2
  | Fault, Fault => True
  | _, _ => False
  end.
Proof.
  induction l as [|a r IH]; intros k added rp b cy K SD NB; [cbn; auto|].
  rewrite loop_cons, loop_db_cons. unfold step, step_db. rewrite EN.
  assert (NX : forall eff a' added' rp' b' cy', same_digests (fst rp') b' -> (forall dg, raw = Some dg -> added' = false -> lookup b' dg = None) ->
    match
      match stanza_loop H G cf en p data fwd raw r (k + 1) added' rp' cy' with
      | Ok (eff', r', rp'', cy'') => Ok (eff ++ eff', a' :: r', rp'', cy'')
      | Fault => Fault
      end,
      match stanza_loop_db H G cf fts now p data fwd raw r (k + 1) added' b' cy' with
      | Ok (eff', r', b'', cy'') => Ok (eff ++ eff', a' :: r', b'', cy'')
      | Fault => Fault
      end
    with
    | Ok (e1, l1, rp1, c1), Ok (e2, l2, b2, c2) => e1 = e2 /\ l1 = l2 /\ c1 = c2 /\ same_digests (fst rp1) b2
    | Fault, Fault => True
    | _, _ => False
    end).
  { intros eff a' added' rp' b' cy' SD' NB'. specialize (IH (k + 1) added' rp' b' cy' ltac:(lia) SD' NB').
    destruct (stanza_loop H G cf en p data fwd raw r (k + 1) added' rp' cy') as [[[[e1 l1] rp1] c1]|],
      (stanza_loop_db H G cf fts now p data fwd raw r (k + 1) added' b' cy') as [[[[e2 l2] b2] c2]|]; auto.
    destruct IH as (-> & -> & -> & S). auto. }
  destruct (negb (src_dst_check a p)); [apply NX; auto|].
  destruct (check_stanza_expiration now a) as [live a1]. destruct (negb live); [apply NX; auto|].
  destruct (decrypt_packet H G a1 data) as [[[c sg]|]|]; [|apply NX; auto|auto].
  assert (NN : exists ad rp1 b1, note_replay cf en p raw added rp = (true, ad, rp1) /\ note_db cf fts p now raw k added b = (true, ad, b1) /\
     same_digests (fst rp1) b1 /\ (forall dg, raw = Some dg -> ad = false -> lookup b1 dg = None)).
  { unfold note_replay, note_db. destruct raw as [dg|]; [|exists added, rp, b; auto].
    destruct (negb (cf_test cf) && negb added) eqn:T; [|exists added, rp, b; auto].
    assert (added = false) by (destruct added, (cf_test cf); auto; discriminate). subst added.
    destruct (WK k K) as (O & R & S). unfold add_replay_db, fetch, insert. rewrite O, R, S. cbn [negb]. rewrite (NB dg eq_refl eq_refl).
    unfold add_replay. rewrite EW, EN. destruct rp as [l f]. eexists true, _, _. split; [reflexivity|]. split; [reflexivity|].
    split; [|intros; discriminate]. cbn [fst]. apply cache_add; auto. }
  destruct NN as (ad & rp1 & b1 & -> & -> & SD1 & NB1). cbn [negb].
  destruct (handle_gpg_sigs a1 (encryption_type (Some data)) c sg) as [[|]|]; [|apply NX; auto|auto].
  destruct (checks cf now p fwd a1 c) as [[| |d]|]; [apply NX; auto| | |auto].
  - auto.
  - destruct (act cf now a1 k d cy) as [[[[|] eff] cy']|]; [apply NX; auto| |auto]. auto.
Qed.
End Loop.

(** ** One packet *)
Definition tracked_db (H : hashes) (cf : conf) (fts : Z -> fate) (data : bytes) (b : base) (raw : option bytes) : Prop :=
  (yes (cf_digest_persistence cf) = true /\ ft_open (fts 0) = true /\ exists dg, raw = Some dg /\ get_raw_digest H data = Ok (Some dg) /\ fetch (fts 0) b dg = None) \/
  (yes (cf_digest_persistence cf) = false /\ raw = None).
Lemma incoming_db_cases H G cf fts now p st effs st' : incoming_spa_db H G cf fts now p st = Ok (effs, st') ->
  (effs = [] /\ st' = st) \/
  (effs = [] /\ exists data fwd dg e e', preprocess cf p = Ok (Some (data, fwd)) /\ yes (cf_digest_persistence cf) = true /\ get_raw_digest H data = Ok (Some dg) /\
     ft_open (fts 0) = true /\ ft_store (fts 0) = true /\ fetch (fts 0) (db_base st) dg = Some e /\ mark now e = Ok e' /\ st' = mkDb (db_acc st) (replace (db_base st) dg e') (db_cycles st)) \/
  exists data fwd raw acc' b' cy', preprocess cf p = Ok (Some (data, fwd)) /\
    tracked_db H cf fts data (db_base st) raw /\
    stanza_loop_db H G cf fts now (k_info p) data fwd raw (db_acc st) 1 false (db_base st) (db_cycles st) = Ok (effs, acc', b', cy') /\
    st' = mkDb acc' b' cy'.
Proof.
  unfold incoming_spa_db. destruct st as [acc b cy]. cbn [db_acc db_base db_cycles].
  destruct (preprocess cf p) as [[[data fwd]|]|] eqn:PP; [|intro E; inversion E; auto|discriminate].
  destruct (negb _); [intro E; inversion E; auto|].
  assert (LOOP : forall raw, tracked_db H cf fts data b raw ->
    match stanza_loop_db H G cf fts now (k_info p) data fwd raw acc 1 false b cy with
    | Ok (eff, acc', rp', cy') => Ok (eff, mkDb acc' rp' cy')
    | Fault => Fault
    end = Ok (effs, st') ->
    exists data0 fwd0 raw acc' b' cy', Ok (Some (data, fwd)) = Ok (Some (data0, fwd0)) /\
      tracked_db H cf fts data0 b raw /\
      stanza_loop_db H G cf fts now (k_info p) data0 fwd0 raw acc 1 false b cy = Ok (effs, acc', b', cy') /\
      st' = mkDb acc' b' cy').
  { intros raw T E. destruct (stanza_loop_db H G cf fts now (k_info p) data fwd raw acc 1 false b cy)
      as [[[[eff acc'] rp'] cy']|] eqn:L; [|discriminate]. inversion E; subst. exists data, fwd, raw, acc', rp', cy'. auto. }
  destruct (yes (cf_digest_persistence cf)) eqn:Y.
  - destruct (get_raw_digest H data) as [[dg|]|] eqn:D; [|intro E; inversion E; auto|discriminate].
    unfold is_replay_db. destruct (ft_open (fts 0)) eqn:O; cbn [negb]; [|intro E; inversion E; auto].
    destruct (fetch (fts 0) b dg) eqn:F.
    + destruct (mark now e) as [e'|] eqn:M; [|discriminate]. destruct (ft_store (fts 0)) eqn:S; [|intro E; inversion E; auto].
      intro E; inversion E; subst. right. left. split; auto. exists data, fwd, dg, e, e'. auto 10.
    + intro E. right. right. apply (LOOP (Some dg)); auto. left. split; auto. split; auto. exists dg. auto.
  - intro E. right. right. apply (LOOP None); auto. right. auto.
Qed.
(** What a packet does to the data base. *)
Lemma incoming_db_base H G cf fts now p st effs st' : hashes_ok H -> packet_ok p -> incoming_spa_db H G cf fts now p st = Ok (effs, st') ->
  db_base st' = db_base st \/
  (on (cf_digest_persistence cf) /\ exists data, carries cf p data /\
    ((exists e e', effs = [] /\ lookup (db_base st) (packet_digest H data) = Some e /\ replayed now e e' /\ db_base st' = replace (db_base st) (packet_digest H data) e') \/
     (lookup (db_base st) (packet_digest H data) = None /\ db_base st' = db_base st ++ [(packet_digest H data, new_entry (k_info p) now)]))).
Proof.
  intros HO PO E. destruct (incoming_db_cases _ _ _ _ _ _ _ _ _ E) as [[_ ->]|[(-> & data & fwd & dg & e & e' & PP & Y & RD & _ & _ & F & M & ->)|(data & fwd & raw & acc' & b' & cy' & PP & TR & L & ->)]]; [auto| |].
  - right. split; [apply yes_on; auto|]. exists data. split; [apply (pre_sound cf p data fwd PO PP)|]. left. apply raw_digest_some in RD; auto. subst dg.
    exists e, e'. split; auto. split; [unfold fetch in F; destruct (ft_read _); [auto|discriminate]|]. split; [apply mark_replayed; auto|reflexivity].
  - cbn [db_base]. destruct TR as [(Y & _ & dg & -> & RD & _)|[Y ->]].
    + apply raw_digest_some in RD; auto. subst dg. destruct (loop_db_base _ _ _ _ _ _ _ _ _ _ _ _ _ _ _ _ _ eq_refl L) as [->|[LN ->]]; [auto|].
      right. split; [apply yes_on; auto|]. exists data. split; [apply (pre_sound cf p data fwd PO PP)|]. right. auto.
    + left. destruct (loop_db_inv H G cf fts now (k_info p) data fwd None (fun _ b1 => b1 = db_base st)) with (3 := L) as (ad & K & _); auto; [|lia].
      intros k added b okd ad b1 _ -> N. cbn in N. injection N as <- <- <-. reflexivity.
Qed.
Lemma known_stays H G cf fts now p st effs st' d : hashes_ok H -> packet_ok p -> incoming_spa_db H G cf fts now p st = Ok (effs, st') ->
  lookup (db_base st) d <> None -> lookup (db_base st') d <> None.
Proof.
  intros HO PO E N. destruct (incoming_db_base _ _ _ _ _ _ _ _ _ HO PO E) as [->|(_ & data & _ & [(e & e' & _ & L & _ & ->)|(L & ->)])]; auto.
  - rewrite lookup_replace. destruct (bseq _ d); auto. rewrite L. discriminate.
  - rewrite lookup_app. destruct (lookup (db_base st) d); congruence.
Qed.
Lemma history_stays H G cf st l st' d : hashes_ok H -> db_history H G cf st l st' ->
  Forall (fun x => match x with DbArrives _ _ p => packet_ok p | DbRestarts _ => True end) l ->
  lookup (db_base st) d <> None -> lookup (db_base st') d <> None.
Proof.
  intros HO HI. induction HI as [st|st fts now p effs st1 l st2 E HI IH|st acc l st2 HI IH]; intros F N; auto.
  - inversion F; subst. apply IH; auto. eapply known_stays; eauto.
  - inversion F; subst. apply IH; auto.
Qed.
Lemma incoming_db_known H G cf fts now p st effs st' data : hashes_ok H -> packet_ok p -> on (cf_digest_persistence cf) ->
  incoming_spa_db H G cf fts now p st = Ok (effs, st') -> carries cf p data -> ft_read (fts 0) = true ->
  lookup (db_base st) (packet_digest H data) <> None -> effs = [] /\ db_acc st' = db_acc st /\ db_cycles st' = db_cycles st.
Proof.
  intros HO PO ON E CA R N. apply yes_on in ON.
  destruct (incoming_db_cases _ _ _ _ _ _ _ _ _ E) as [[-> ->]|[(-> & data' & fwd & dg & e & e' & PP & Y & RD & _ & _ & F & M & ->)|(data' & fwd & raw & acc' & b' & cy' & PP & TR & L & ->)]]; auto.
  exfalso. destruct TR as [(_ & _ & dg & -> & RD & F)|[Y _]]; [|congruence].
  apply raw_digest_some in RD; auto. subst dg. destruct (pre_sound cf p data' fwd PO PP) as [C _]. rewrite (carries_fun _ _ _ _ C CA) in F.
  unfold fetch in F. rewrite R in F. contradiction.
Qed.
Lemma incoming_db_acts H G cf fts now p st effs st' data : hashes_ok H -> packet_ok p -> cf_test cf = false -> on (cf_digest_persistence cf) ->
  (forall k, 1 <= k -> works (fts k)) -> incoming_spa_db H G cf fts now p st = Ok (effs, st') -> effs <> [] -> carries cf p data ->
  lookup (db_base st) (packet_digest H data) = None /\ db_base st' = db_base st ++ [(packet_digest H data, new_entry (k_info p) now)].
Proof.
  intros HO PO NT ON WK E NE CA. apply yes_on in ON.
  destruct (incoming_db_cases _ _ _ _ _ _ _ _ _ E) as [[Q _]|[(Q & _)|(data' & fwd & raw & acc' & b' & cy' & PP & TR & L & ->)]]; try congruence.
  destruct TR as [(_ & _ & dg & -> & RD & F)|[Y _]]; [|congruence].
  apply raw_digest_some in RD; auto. subst dg. destruct (pre_sound cf p data' fwd PO PP) as [C _]. rewrite (carries_fun _ _ _ _ C CA) in *.
  cbn [db_base]. eapply loop_db_recorded; eauto.
Qed.
Lemma incoming_db_unopened H G cf fts now p st effs st' : cf_test cf = false -> on (cf_digest_persistence cf) ->
  (ft_open (fts 0) = false \/ forall k, 1 <= k -> ft_open (fts k) = false) -> incoming_spa_db H G cf fts now p st = Ok (effs, st') -> effs = [].
Proof.
  intros NT ON W E. apply yes_on in ON.
  destruct (incoming_db_cases _ _ _ _ _ _ _ _ _ E) as [[Q _]|[(Q & _)|(data' & fwd & raw & acc' & b' & cy' & PP & TR & L & ->)]]; try congruence.
  destruct TR as [(_ & O & dg & -> & RD & F)|[Y _]]; [|congruence]. destruct W as [W|W]; [congruence|].
  eapply loop_db_unopened; eauto.
Qed.
Lemma incoming_same H G cf fts en p st sd : hashes_ok H -> e_writable en = true -> (forall k, works (fts k)) ->
  db_acc sd = st_acc st -> db_cycles sd = st_cycles st -> same_digests (fst (st_replay st)) (db_base sd) -> countable (db_base sd) ->
  match incoming_spa H G cf en p st, incoming_spa_db H G cf fts (e_now en) p sd with
  | Ok (e1, s1), Ok (e2, s2) => e1 = e2 /\ db_acc s2 = st_acc s1 /\ db_cycles s2 = st_cycles s1 /\ same_digests (fst (st_replay s1)) (db_base s2)
  | Fault, Fault => True
  | _, _ => False
  end.
Proof.
  intros HO W WK EA EC SD CN. unfold incoming_spa, incoming_spa_db. rewrite EA, EC.
  destruct (preprocess cf p) as [[[data fwd]|]|]; [|auto|auto]. destruct (negb _); [auto|].
  assert (LOOP : forall raw, (forall dg, raw = Some dg -> digest43 dg) -> (forall dg, raw = Some dg -> false = false -> lookup (db_base sd) dg = None) ->
    match
      match stanza_loop H G cf en (k_info p) data fwd raw (st_acc st) 1 false (st_replay st) (st_cycles st) with
      | Ok (eff, acc', rp', cy') => Ok (eff, mkSt acc' rp' cy')
      | Fault => Fault
      end,
      match stanza_loop_db H G cf fts (e_now en) (k_info p) data fwd raw (st_acc st) 1 false (db_base sd) (st_cycles st) with
      | Ok (eff, acc', b', cy') => Ok (eff, mkDb acc' b' cy')
      | Fault => Fault
      end with
    | Ok (e1, s1), Ok (e2, s2) => e1 = e2 /\ db_acc s2 = st_acc s1 /\ db_cycles s2 = st_cycles s1 /\ same_digests (fst (st_replay s1)) (db_base s2)
    | Fault, Fault => True
    | _, _ => False
    end).
  { intros raw D N. pose proof (loop_same H G cf fts (e_now en) (k_info p) data fwd raw en eq_refl W (fun k _ => WK k) D
      (st_acc st) 1 false (st_replay st) (db_base sd) (st_cycles st) ltac:(lia) SD N) as L.
    destruct (stanza_loop _ _ _ _ _ _ _ _ _ _ _ _ _) as [[[[e1 l1] rp1] c1]|], (stanza_loop_db _ _ _ _ _ _ _ _ _ _ _ _ _ _) as [[[[e2 l2] b2] c2]|]; auto.
    destruct L as (-> & -> & -> & S). cbn. auto. }
  destruct (yes (cf_digest_persistence cf)); [|apply (LOOP None); intros; discriminate].
  destruct (get_raw_digest H data) as [[dg|]|] eqn:D; [|auto|auto]. apply raw_digest_some in D; auto.
  assert (D43 : digest43 dg) by (subst dg; apply digest_ok; auto).
  destruct (WK 0) as (O & R & S). unfold is_replay_db, fetch. rewrite O, R, S. cbn [negb].
  pose proof SD as [CO SD1]. specialize (SD1 dg D43). unfold filed in SD1.
  destruct (is_replay_spec (fst (st_replay st)) dg (proj1 D43) CO) as (bb & IR & HB). rewrite IR.
  change (exists c, In c (fst (st_replay st)) /\ ztake 43 (ci_buf c) = dg) with (remembered (fst (st_replay st)) dg) in HB. rewrite SD1 in HB.
  destruct (lookup (db_base sd) dg) as [e|] eqn:L.
  - assert (bb = true) by (apply HB; eauto). subst bb. unfold mark. pose proof (CN dg e L) as C.
    replace (en_count e =? 2147483647) with false by lia. cbn [db_acc db_base db_cycles]. split; auto. split; auto. split; auto. split; auto.
    intros d Dd. rewrite (proj2 SD d Dd). unfold filed. rewrite lookup_replace, L. destruct (bseq dg d) eqn:B; [|reflexivity].
    apply bseq_eq in B. subst d. rewrite L. split; eauto.
  - assert (bb = false) by (destruct bb; auto; destruct HB as [HB _]; destruct (HB eq_refl); discriminate). subst bb.
    apply (LOOP (Some dg)); intros d Q; injection Q as <-; auto.
Qed.
(** A replay is counted. *)
Lemma incoming_db_counted H G cf fts now p st effs st' data e a : hashes_ok H -> packet_ok p -> on (cf_digest_persistence cf) -> works (fts 0) ->
  carries cf p data -> data_ok data -> zlen data < 1500 -> unprefixed p -> agent_ok cf p -> In a (db_acc st) -> in_nets (a_source a) (p_src (k_info p)) ->
  lookup (db_base st) (packet_digest H data) = Some e ->
  incoming_spa_db H G cf fts now p st = Ok (effs, st') ->
  effs = [] /\ db_acc st' = db_acc st /\ db_cycles st' = db_cycles st /\ exists e', lookup (db_base st') (packet_digest H data) = Some e' /\ replayed now e e'.
Proof.
  intros HO PO ON (O & R & S) CA DO L UP AG IA IN LK. unfold incoming_spa_db.
  destruct (pre_complete cf p data PO CA DO UP AG) as [->|[fwd ->]]; [discriminate|].
  assert (X : existsb (fun a => compare_addr_list (a_source a) (p_src (k_info p))) (db_acc st) = true).
  { apply existsb_exists. exists a. split; auto. apply in_nets_iff. auto. }
  rewrite X. cbn [negb]. apply yes_on in ON. rewrite ON. destruct DO as [DL _].
  rewrite raw_digest_ok by (auto; lia). unfold is_replay_db, fetch. rewrite O, R, S, LK. cbn [negb].
  destruct (mark now e) as [e'|] eqn:M; [|discriminate]. intro E. injection E as <- <-. cbn [db_acc db_cycles db_base].
  split; auto. split; auto. split; auto. exists e'. rewrite lookup_replace, LK, bseq_refl. split; auto. apply mark_replayed; auto.
Qed.
Lemma incoming_db_others H G cf fts now p st effs st' d : hashes_ok H -> packet_ok p -> incoming_spa_db H G cf fts now p st = Ok (effs, st') ->
  (forall data, carries cf p data -> d <> packet_digest H data) -> lookup (db_base st') d = lookup (db_base st) d.
Proof.
  intros HO PO E N. destruct (incoming_db_base _ _ _ _ _ _ _ _ _ HO PO E) as [->|(_ & data & CA & [(e & e' & _ & L & _ & ->)|(L & ->)])]; auto.
  - rewrite lookup_replace. destruct (bseq _ d) eqn:B; auto. apply bseq_eq in B. exfalso. apply (N data CA). auto.
  - rewrite lookup_app. destruct (lookup (db_base st) d); auto. cbn [lookup]. destruct (bseq _ d) eqn:B; auto. apply bseq_eq in B. exfalso. apply (N data CA). auto.
Qed.
