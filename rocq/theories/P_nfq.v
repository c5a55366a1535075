(** Proofs about the queue of netfilter. *)
From Verif Require Import Bytes S_text S_access S_replay S_cycle M_util M_message M_codec M_cipher M_ctx M_access M_replay M_cycle M_incoming M_packet M_fw M_fwinit M_daemon S_incoming S_packet
  P_bytes P_util P_packet P_send2 M_nfq S_nfq.
From Verif Require M_life.
From Coq Require Import Init.Byte List ZArith Bool Lia.
Import ListNotations.
Open Scope Z_scope.

(** ** Addresses taken for a type *)
Lemma src_field f i data : datagram f i data -> octets12 (p_src i) = field 12 2 f /\ 20 <= zlen f.
Proof.
  intros (h & seg & I & _ & H20 & _ & _ & SR & _). assert (L : 20 <= zlen f) by (rewrite I, zlen_app; pose proof (zlen_nonneg seg); lia). split; [|exact L].
  unfold octets12. rewrite SR, field_4 by (unfold zlen in L; lia). pose proof (field_2_range f (12 + 2)). rewrite Z.div_add_l by lia. rewrite Z.div_small; lia.
Qed.
Lemma ordinary_link f i data : datagram f i data -> ordinary (p_src i) -> ~ tagged f /\ contents f (field 12 2 f) /\ link_length 0 f 0.
Proof.
  intros D (O1 & O2 & O3). destruct (src_field _ _ _ D) as (E & _). rewrite E in *.
  assert (NT : ~ tagged f) by (unfold tagged; lia). split; [exact NT|]. assert (C : contents f (field 12 2 f)) by (right; auto). split; [exact C|].
  exists 0, (field 12 2 f). split; [right; auto|]. split; [exact C|]. right. left. split; [lia|]. split; [lia|reflexivity].
Qed.
Lemma contents_fun f t t' : contents f t -> contents f t' -> t = t'.
Proof. intros [[A B]|[A B]] [[A' B']|[A' B']]; try contradiction; congruence. Qed.
Lemma datagram_len f i data : datagram f i data -> 0 <= zlen f < 65536.
Proof. intros (h & seg & _ & _ & _ & E & _). rewrite E. apply field_2_range. Qed.
Lemma datagram_data f i data : datagram f i data -> zlen data <= zlen f.
Proof. intros (h & seg & -> & _ & _ & _ & _ & _ & _ & (th & -> & _)). rewrite !zlen_app. pose proof (zlen_nonneg h). pose proof (zlen_nonneg th). lia. Qed.

Lemma seen_ordinary f i data : datagram f i data -> header_words f = 5 -> ordinary (p_src i) ->
  forall data' i', seen f = Ok (Some (data', i')) <-> data' = data /\ i' = i /\ 140 <= zlen data <= 1500 /\ zlen f <= 1514.
Proof.
  intros D HW O data' i'. destruct (ordinary_link _ _ _ D O) as (NT & C & LL). pose proof (datagram_len _ _ _ D) as FL. destruct (src_field _ _ _ D) as (E & L20).
  destruct O as (O1 & O2 & O3). rewrite E in *. unfold seen. split.
  - intro S. destruct (received_sound 0 (zlen f) f data' i' ltac:(lia) S) as (_ & _ & LE & l & ip & pad & F & LL' & W & R & DL).
    pose proof (link_length_fun _ _ _ _ LL LL') as Z0. assert (l = []) by (destruct l; [reflexivity|rewrite zlen_cons in Z0; pose proof (zlen_nonneg l); lia]). subst l. cbn [app] in F.
    assert (I20 : 20 <= zlen ip) by (destruct R as (h & seg & -> & HZ & _); rewrite zlen_app; pose proof (zlen_nonneg seg); lia).
    assert (FI : field 2 2 f = field 2 2 ip). { rewrite F. pose proof (field_app [] ip pad 2 2) as X. cbn [length Nat.add app] in X. apply X. unfold zlen in I20. lia. }
    assert (ZI : zlen ip = zlen f). { destruct R as (h & seg & _ & _ & Z & _). destruct D as (h' & seg' & _ & _ & _ & Z' & _). lia. }
    assert (pad = []). { destruct pad as [|c pad]; [reflexivity|]. apply (f_equal zlen) in F. rewrite zlen_app, zlen_cons in F. pose proof (zlen_nonneg pad). lia. } subst pad. rewrite app_nil_r in F. subst ip.
    apply plain_datagram in R; auto. destruct (datagram_fun _ _ _ _ _ D R) as (<- & <-). split; [reflexivity|]. split; [reflexivity|]. split; [exact DL|].
    rewrite Z.mod_small in LE by lia. destruct (LE _ C) as [LE1 _]. lia.
  - intros (-> & -> & DL & F14). pose proof (datagram_data _ _ _ D). apply received_complete with (l := []) (ip := f) (pad := []); auto; try lia.
    + intros t C'. rewrite <- (contents_fun _ _ _ C C'). rewrite Z.mod_small by lia. split; intros; lia.
    + rewrite app_nil_r. reflexivity.
    + rewrite HW. left. reflexivity.
    + apply plain_datagram; auto.
Qed.
(** The address as a length of an old frame *)
Lemma seen_foreign f i data : datagram f i data -> octets12 (p_src i) <= 1500 -> octet1 (p_src i) <> 1 -> forall plen data' i', process_packet 0 plen f <> Ok (Some (data', i')).
Proof.
  intros D O1 N1 plen data' i' S. destruct (src_field _ _ _ D) as (E & L20). rewrite E in O1.
  destruct (received_sound 0 plen f data' i' ltac:(lia) S) as (_ & _ & _ & l & ip & pad & F & LL & _ & R & _).
  assert (NT : ~ tagged f) by (unfold tagged; lia).
  assert (LL3 : link_length 0 f 3). { exists 0, (field 12 2 f). split; [right; auto|]. split; [right; auto|]. right. right. lia. }
  pose proof (link_length_fun _ _ _ _ LL3 LL) as Z3. destruct R as (h & seg & I & HZ & _ & PR & _ & _ & (th & _ & SG)).
  assert (I20 : 20 <= zlen ip) by (rewrite I, zlen_app; pose proof (zlen_nonneg seg); lia).
  assert (PF : p_proto i' = field 12 1 f).
  { rewrite PR, F. pose proof (field_app l ip pad 9 1) as X. replace (length l + 9)%nat with 12%nat in X by (unfold zlen in Z3; lia). symmetry. apply X. unfold zlen in I20. lia. }
  assert (F2 : field 12 2 f = field 12 1 f * 256 + field 13 1 f) by (rewrite field_2, !field_1 by (unfold zlen in L20; lia); reflexivity).
  pose proof (field_1_range f 12) as R1. pose proof (field_1_range f 13) as R2.
  assert (O : octet1 (p_src i) = field 12 1 f).
  { unfold octet1. change 16777216 with (65536 * 256). rewrite <- Z.div_div by lia. fold (octets12 (p_src i)). rewrite E, F2, Z.div_add_l by lia. rewrite Z.div_small; lia. }
  rewrite PF in SG. rewrite O in N1. destruct SG as [(X & _)|[(X & _)|(X & _)]]; lia.
Qed.

(** ** The rounds are turns of the daemon *)
Section Machine.
Variable W : Type.
Variable exec : W -> list bytes -> W * ended * bytes.
Variable H : hashes.
Variable G : gpg.
Variable cf : conf.
Variable fc : fwconf.
Variable resolve : bytes -> option bytes.
Variable limit : Z.
Notation TT := (turns W exec H G cf fc resolve).
Notation T1 := (take W exec H G cf fc resolve).
Notation RR := (rounds W exec H G cf fc resolve limit).
Notation R1 := (round W exec H G cf fc resolve limit).
Notation PP := (packets W exec H G cf fc resolve).

Lemma turns_app a : forall b w l1 w1 l2 w2, TT a w = Ok (l1, w1) -> TT b w1 = Ok (l2, w2) -> TT (a ++ b) w = Ok (l1 ++ l2, w2).
Proof.
  induction a as [|x a IH]; intros b w l1 w1 l2 w2 A B.
  - cbn in A. injection A as <- <-. exact B.
  - cbn [turns app] in *. destruct (T1 x w) as [[l w']|]; [|discriminate]. cbn [bind] in *. destruct (TT a w') as [[l' w'']|] eqn:Q; [|discriminate]. cbn [bind] in A. injection A as <- <-.
    rewrite (IH b w' l' w'' l2 w2 Q B). cbn [bind]. rewrite app_assoc. reflexivity.
Qed.
Lemma turns_one x w l w' : T1 x w = Ok (l, w') -> TT [x] w = Ok (l, w').
Proof. intro E. cbn [turns]. rewrite E. cbn [bind]. rewrite app_nil_r. reflexivity. Qed.

Definition turn_from (ps : list queued) (t : turn) : Prop :=
  exists q data i p, In q ps /\ seen (q_bytes q) = Ok (Some (data, i)) /\ t = Receive (q_env q) p (q_later q) /\ payload p = data /\ k_info p = i /\ packet_ok p.
Lemma packets_turns ps : forall v w x v' w', zlen (v_array v) = 1501 -> PP ps v w = Ok (x, v', w') ->
  x = map verdict_on ps /\ zlen (v_array v') = 1501 /\ v_flags v' = v_flags v /\ v_break v' = v_break v /\ v_errors v' = v_errors v /\ v_packets v' = v_packets v /\
  exists ts log, TT ts w = Ok (log, w') /\ Forall (turn_from ps) ts.
Proof.
  induction ps as [|q ps IH]; intros v w x v' w' LA E.
  - cbn in E. injection E as <- <- <-. repeat (split; [auto|]). exists [], []. split; [reflexivity|constructor].
  - cbn [packets] in E. destruct (seen (q_bytes q)) as [o|] eqn:S; [|discriminate]. cbn [bind] in E.
    assert (K : forall ts, Forall (turn_from ps) ts -> Forall (turn_from (q :: ps)) ts).
    { intros ts F. eapply Forall_impl; [|exact F]. intros t (q' & d & i & p & I & R). exists q', d, i, p. split; [right; exact I|exact R]. }
    destruct o as [[data i]|].
    + destruct (T1 (Receive (q_env q) (deliver (v_array v) data i) (q_later q)) w) as [[l1 w1]|] eqn:Q; [|discriminate]. cbn [bind] in E.
      destruct (received_sound 0 (zlen (q_bytes q)) (q_bytes q) data i ltac:(lia) S) as (_ & _ & _ & l & ip & pad & _ & _ & _ & R & DL).
      destruct (plain_ranges _ _ _ R) as (SR & DR). destruct (deliver_ok (v_array v) data i LA ltac:(lia) SR DR) as (D1 & D2 & D3 & D4).
      destruct (PP ps _ w1) as [[[x1 v1] w2]|] eqn:Q2; [|discriminate]. cbn [bind] in E. injection E as <- <- <-.
      destruct (IH (with_array (k_buf (deliver (v_array v) data i)) v) _ _ _ _ D4 Q2) as (-> & L & E1 & E2 & E3 & E4 & ts & log & TS & FA).
      split; [reflexivity|]. repeat (split; [auto|]).
      exists (Receive (q_env q) (deliver (v_array v) data i) (q_later q) :: ts), (l1 ++ log). split.
      * cbn [turns]. rewrite Q. cbn [bind]. rewrite TS. reflexivity.
      * constructor; [|apply K; exact FA]. exists q, data, i, (deliver (v_array v) data i). split; [left; reflexivity|]. repeat (split; [auto|]). exact D1.
    + cbn [bind] in E. destruct (PP ps v w) as [[[x1 v1] w2]|] eqn:Q2; [|discriminate]. cbn [bind] in E. injection E as <- <- <-.
      destruct (IH _ _ _ _ _ LA Q2) as (-> & L & E1 & E2 & E3 & E4 & ts & log & TS & FA). split; [reflexivity|]. repeat (split; [auto|]). exists ts, log. split; auto.
Qed.

Lemma finish_on now v w y : finish W exec H G cf fc resolve now v w = Ok y -> exists log w', y = On v w' /\ T1 (Sweep false now) w = Ok (log, w').
Proof.
  unfold finish. destruct (T1 (Sweep false now) w) as [[log w']|]; [|discriminate]. cbn [bind]. intro E. injection E as <-. exists log, w'. auto.
Qed.
Lemma look_array v : v_array (look v) = v_array v.
Proof. unfold look. destruct (if M_life.f_got _ then _ else _) as [f b]. reflexivity. Qed.
Lemma look_packets v : v_packets (look v) = v_packets v /\ v_errors (look v) = v_errors v.
Proof. unfold look. destruct (if M_life.f_got _ then _ else _) as [f b]. auto. Qed.

Definition vars_after (y : progress W) : vars := match y with On v _ => v | Left v _ => v | GaveUp v _ => v end.
Lemma round_turns sigs r now v w x y : zlen (v_array v) = 1501 -> R1 sigs r now v w = Ok (x, y) ->
  x = map verdict_on (match r with Got _ ps => ps | _ => [] end) /\ zlen (v_array (vars_after y)) = 1501 /\
  exists ts log, TT ts w = Ok (log, world_after y) /\
    Forall (fun t => t = Sweep false now \/ turn_from (match r with Got _ ps => ps | _ => [] end) t) ts.
Proof.
  intros LA E. unfold round in E. set (v0 := mkVars _ _ _ _ _) in E. assert (LL : zlen (v_array (look v0)) = 1501) by (rewrite look_array; exact LA).
  assert (FIN : forall v1 w1 y1, finish W exec H G cf fc resolve now v1 w1 = Ok y1 -> zlen (v_array v1) = 1501 ->
    zlen (v_array (vars_after y1)) = 1501 /\ exists log, TT [Sweep false now] w1 = Ok (log, world_after y1)).
  { intros v1 w1 y1 F L1. destruct (finish_on _ _ _ _ F) as (log & w' & -> & T). split; [exact L1|]. exists log. apply turns_one. exact T. }
  destruct r as [n ps| |].
  - destruct (PP ps (look v0) w) as [[[x1 v1] w1]|] eqn:Q; [|discriminate]. cbn [bind] in E.
    destruct (finish W exec H G cf fc resolve now (count limit n v1) w1) as [y1|] eqn:F; [|discriminate]. cbn [bind] in E. injection E as <- <-.
    destruct (packets_turns ps _ _ _ _ _ LL Q) as (-> & L1 & _ & _ & _ & _ & ts & log & TS & FA).
    destruct (FIN _ _ _ F L1) as (L2 & log2 & TS2). split; [reflexivity|]. split; [exact L2|]. exists (ts ++ [Sweep false now]), (log ++ log2).
    split; [apply (turns_app _ _ _ _ _ _ _ TS TS2)|]. apply Forall_app. split; [eapply Forall_impl; [|exact FA]; intros; right; auto|]. constructor; [left; reflexivity|constructor].
  - destruct (v_errors (look v0) >? MAX_NFQ_ERRORS_BEFORE_BAIL).
    + injection E as <- <-. split; [reflexivity|]. split; [exact LL|]. exists [], []. split; [reflexivity|constructor].
    + destruct (finish _ _ _ _ _ _ _ _ _ _) as [y1|] eqn:F; [|discriminate]. cbn [bind] in E. injection E as <- <-.
      destruct (FIN _ _ _ F LL) as (L2 & log2 & TS2). split; [reflexivity|]. split; [exact L2|]. exists [Sweep false now], log2. split; [exact TS2|]. constructor; [left; reflexivity|constructor].
  - destruct (v_break (look v0)).
    + injection E as <- <-. split; [reflexivity|]. split; [exact LL|]. exists [], []. split; [reflexivity|constructor].
    + destruct (finish _ _ _ _ _ _ _ _ _ _) as [y1|] eqn:F; [|discriminate]. cbn [bind] in E. injection E as <- <-.
      destruct (FIN _ _ _ F LL) as (L2 & log2 & TS2). split; [reflexivity|]. split; [exact L2|]. exists [Sweep false now], log2. split; [exact TS2|]. constructor; [left; reflexivity|constructor].
Qed.

Theorem rounds_turns l : forall v w x y, zlen (v_array v) = 1501 -> RR l v w = Ok (x, y) ->
  (exists rest, map verdict_on (queue_of l) = x ++ rest /\ (forall v' w', y = On v' w' -> rest = [])) /\
  exists ts log, TT ts w = Ok (log, world_after y) /\ Forall (turn_of l) ts /\ Forall (fun t => forall en p later, t = Receive en p later -> packet_ok p) ts.
Proof.
  induction l as [|[[sigs r] now] l IH]; intros v w x y LA E.
  - cbn in E. injection E as <- <-. split; [exists []; auto|]. exists [], []. repeat split; constructor.
  - cbn [rounds] in E. destruct (R1 sigs r now v w) as [[x1 y1]|] eqn:Q; [|discriminate]. cbn [bind] in E.
    destruct (round_turns _ _ _ _ _ _ _ LA Q) as (X1 & L1 & ts & log & TS & FA).
    assert (K : Forall (turn_of ((sigs, r, now) :: l)) ts /\ Forall (fun t => forall en p later, t = Receive en p later -> packet_ok p) ts).
    { split; (eapply Forall_impl; [|exact FA]).
      - intros t [->|(q & d & i & p & I & S & -> & P1 & P2 & _)]; cbn [turn_of].
        + split; [reflexivity|]. exists sigs, r. left. reflexivity.
        + exists q, d, i. split; [|auto]. destruct r as [n ps| |]; try destruct I. exists sigs, n, ps, now. split; [left; reflexivity|]. exact I.
      - intros t [->|(q & d & i & p & I & S & -> & P1 & P2 & PK)] en p' later EQ; [discriminate|]. injection EQ as <- <- <-. exact PK. }
    assert (QO : queue_of ((sigs, r, now) :: l) = (match r with Got _ ps => ps | _ => [] end) ++ queue_of l) by reflexivity.
    assert (UP : forall ts, Forall (turn_of l) ts -> Forall (turn_of ((sigs, r, now) :: l)) ts).
    { intros t2 F. eapply Forall_impl; [|exact F]. intros t. destruct t; cbn [turn_of]; auto.
      - intros (q & d & i & (s' & n' & ps' & now' & I & J) & R). exists q, d, i. split; [|exact R]. exists s', n', ps', now'. split; [right; exact I|exact J].
      - intros (-> & s' & r' & I). split; [reflexivity|]. exists s', r'. right. exact I. }
    destruct y1 as [v1 w1|v1 w1|v1 w1]; cbn [vars_after world_after] in *.
    + destruct (RR l v1 w1) as [[x2 y2]|] eqn:Q2; [|discriminate]. cbn [bind] in E. injection E as <- <-.
      destruct (IH _ _ _ _ L1 Q2) as ((rest & V & VN) & ts2 & log2 & TS2 & FA2 & FB2). split.
      * exists rest. rewrite QO, map_app, <- X1, V, app_assoc. auto.
      * exists (ts ++ ts2), (log ++ log2). split; [apply (turns_app _ _ _ _ _ _ _ TS TS2)|]. destruct K. split; apply Forall_app; auto.
    + injection E as <- <-. split; [exists (map verdict_on (queue_of l)); rewrite QO, map_app, <- X1; split; [reflexivity|discriminate]|]. exists ts, log. auto.
    + injection E as <- <-. split; [exists (map verdict_on (queue_of l)); rewrite QO, map_app, <- X1; split; [reflexivity|discriminate]|]. exists ts, log. auto.
Qed.

(** ** The end of the loop *)
Lemma flags_stop sigs : forall f, (exists g, In g sigs /\ stops g) ->
  let f' := fold_left (fun f g => M_life.sig_handler g f) sigs f in M_life.f_got f' = true /\ M_life.f_int f' || M_life.f_term f' || M_life.f_hup f' = true.
Proof.
  assert (K : forall l f, M_life.f_got f = true -> M_life.f_int f || M_life.f_term f || M_life.f_hup f = true ->
    M_life.f_got (fold_left (fun f g => M_life.sig_handler g f) l f) = true /\
    M_life.f_int (fold_left (fun f g => M_life.sig_handler g f) l f) || M_life.f_term (fold_left (fun f g => M_life.sig_handler g f) l f) || M_life.f_hup (fold_left (fun f g => M_life.sig_handler g f) l f) = true).
  { induction l as [|g l IH]; intros f A B; [auto|]. cbn [fold_left]. apply IH.
    - destruct g; reflexivity.
    - destruct g; cbn; auto; rewrite ?orb_true_r; auto. }
  induction sigs as [|g sigs IH]; intros f (g0 & I & S); [destruct I|]. cbn [fold_left]. destruct I as [->|I].
  - apply K; destruct S as [E|[E|E]]; subst g0; cbn; rewrite ?orb_true_r; reflexivity.
  - apply IH. exists g0. auto.
Qed.
Lemma look_stop v : M_life.f_got (v_flags v) = true -> M_life.f_int (v_flags v) || M_life.f_term (v_flags v) || M_life.f_hup (v_flags v) = true -> v_break (look v) = true.
Proof. intros A B. unfold look. destruct (M_life.f_chld (v_flags v)); cbn; rewrite A, B; reflexivity. Qed.
Lemma look_keeps v : v_break v = true -> v_break (look v) = true.
Proof.
  intros A. unfold look. destruct (M_life.f_chld (v_flags v)); cbn; destruct (M_life.f_got _); cbn; auto;
    destruct (_ || _ || _); cbn; auto; destruct (_ || _); cbn; auto.
Qed.
(** Once the loop is to be left it stays so. *)
Lemma round_keeps sigs r now v w x y : v_break v = true \/ (exists g, In g sigs /\ stops g) -> R1 sigs r now v w = Ok (x, y) -> v_break (vars_after y) = true /\ (r = Nothing -> exists v' w', y = Left v' w' /\ w' = w).
Proof.
  intros B E. unfold round in E. set (v0 := mkVars _ _ _ _ _) in E.
  assert (LB : v_break (look v0) = true).
  { destruct B as [B|B]; [apply look_keeps; exact B|]. destruct (flags_stop sigs (v_flags v) B) as (X & Y). apply look_stop; auto. }
  destruct r as [n ps| |].
  - split; [|discriminate]. destruct (PP ps (look v0) w) as [[[x1 v1] w1]|] eqn:Q; [|discriminate]. cbn [bind] in E.
    destruct (finish _ _ _ _ _ _ _ _ _ _) as [y1|] eqn:F; [|discriminate]. cbn [bind] in E. injection E as <- <-. destruct (finish_on _ _ _ _ F) as (log & w' & -> & _). cbn [vars_after].
    assert (KB : forall ps v w x v' w', PP ps v w = Ok (x, v', w') -> v_break v' = v_break v).
    { clear. induction ps as [|q ps IH]; intros v w x v' w' E; cbn [packets] in E; [injection E as _ <- _; reflexivity|].
      destruct (seen (q_bytes q)) as [[[d i]|]|]; try discriminate; cbn [bind] in E.
      - destruct (T1 _ w) as [[l1 w1]|]; [|discriminate]. cbn [bind] in E. destruct (PP ps _ w1) as [[[x1 v1] w2]|] eqn:Q; [|discriminate]. cbn [bind] in E. injection E as <- <- <-. apply IH in Q. exact Q.
      - destruct (PP ps v w) as [[[x1 v1] w2]|] eqn:Q; [|discriminate]. cbn [bind] in E. injection E as <- <- <-. apply IH in Q. exact Q. }
    unfold count. cbn [v_break]. rewrite (KB _ _ _ _ _ _ Q), LB. reflexivity.
  - split; [|discriminate]. destruct (v_errors (look v0) >? MAX_NFQ_ERRORS_BEFORE_BAIL); [injection E as <- <-; exact LB|].
    destruct (finish _ _ _ _ _ _ _ _ _ _) as [y1|] eqn:F; [|discriminate]. cbn [bind] in E. injection E as <- <-. destruct (finish_on _ _ _ _ F) as (log & w' & -> & _). exact LB.
  - rewrite LB in E. injection E as <- <-. split; [exact LB|]. intros _. exists (look v0), w. auto.
Qed.
Lemma round_going sigs n ps now v w x y : R1 sigs (Got n ps) now v w = Ok (x, y) -> exists v' w', y = On v' w'.
Proof.
  intro E. unfold round in E. destruct (PP ps _ w) as [[[x1 v1] w1]|]; [|discriminate]. cbn [bind] in E.
  destruct (finish _ _ _ _ _ _ _ _ _ _) as [y1|] eqn:F; [|discriminate]. cbn [bind] in E. injection E as <- <-. destruct (finish_on _ _ _ _ F) as (log & w' & -> & _). eauto.
Qed.
Theorem busy_going l : forall v w x y, busy l -> RR l v w = Ok (x, y) -> exists v' w', y = On v' w'.
Proof.
  induction l as [|[[sigs r] now] l IH]; intros v w x y B E; cbn [rounds] in E.
  - injection E as <- <-. eauto.
  - destruct (B sigs r now (or_introl eq_refl)) as (n & ps & ->). destruct (R1 sigs (Got n ps) now v w) as [[x1 y1]|] eqn:Q; [|discriminate]. cbn [bind] in E.
    destruct (round_going _ _ _ _ _ _ _ _ Q) as (v1 & w1 & ->). destruct (RR l v1 w1) as [[x2 y2]|] eqn:Q2; [|discriminate]. cbn [bind] in E. injection E as <- <-.
    apply (IH _ _ _ _ (fun s r n I => B s r n (or_intror I)) Q2).
Qed.
(** With a signal, the first round in which nothing is received is the last. *)
Theorem quiet_leaves sigs r now l v w x y : (exists g, In g sigs /\ stops g) -> (exists s t, In (s, Nothing, t) ((sigs, r, now) :: l)) -> RR ((sigs, r, now) :: l) v w = Ok (x, y) -> forall v' w', y <> On v' w'.
Proof.
  intros S EN. assert (GEN : forall l v w x y, v_break v = true -> (exists s t, In (s, Nothing, t) l) -> RR l v w = Ok (x, y) -> forall v' w', y <> On v' w').
  { clear. induction l as [|[[sigs r] now] l IH]; intros v w x y B (s & t & I) E; [destruct I|]. cbn [rounds] in E.
    destruct (R1 sigs r now v w) as [[x1 y1]|] eqn:Q; [|discriminate]. cbn [bind] in E. destruct (round_keeps _ _ _ _ _ _ _ (or_introl B) Q) as (B1 & N1).
    destruct y1 as [v1 w1|v1 w1|v1 w1]; try (injection E as <- <-; discriminate).
    destruct I as [I|I]; [assert (r = Nothing) as -> by congruence; destruct (N1 eq_refl) as (? & ? & ? & _); discriminate|].
    destruct (RR l v1 w1) as [[x2 y2]|] eqn:Q2; [|discriminate]. cbn [bind] in E. injection E as <- <-. apply (IH v1 w1 x2 y2); eauto. }
  intro E. cbn [rounds] in E. destruct (R1 sigs r now v w) as [[x1 y1]|] eqn:Q; [|discriminate]. cbn [bind] in E. destruct (round_keeps _ _ _ _ _ _ _ (or_intror S) Q) as (B1 & N1).
  destruct y1 as [v1 w1|v1 w1|v1 w1]; try (injection E as <- <-; discriminate). destruct EN as (s & t & [I|I]).
  - assert (r = Nothing) as -> by congruence. destruct (N1 eq_refl) as (? & ? & ? & _). discriminate.
  - destruct (RR l v1 w1) as [[x2 y2]|] eqn:Q2; [|discriminate]. cbn [bind] in E. injection E as <- <-. apply (GEN l v1 w1 x2 y2); eauto.
Qed.

(** ** Cycles *)
Lemma act_cycles now a k d cy fl eff cy' c : act cf now a k d cy = Ok (fl, eff, cy') -> In c cy -> In c cy'.
Proof.
  unfold act. intros E I. destruct (a_cycle a) as [cc|].
  - unfold cmd_cycle_open in E. destruct (build_cmd d (cc_open cc) (cc_timer cc)) as [[cmd|]|]; try discriminate.
    + destruct (cc_do_close cc).
      * destruct (build_cmd d (cc_close cc) (cc_timer cc)) as [[cl|]|]; try discriminate; injection E as _ _ <-; [apply in_or_app; left|]; exact I.
      * injection E as _ _ <-. exact I.
    + injection E as _ _ <-. exact I.
  - destruct (d_type d =? FKO_COMMAND_MSG).
    + destruct (process_cmd_msg cf a k d) as [[e|]|]; try discriminate; injection E as _ _ <-; exact I.
    + destruct (negb _); [injection E as _ _ <-; exact I|]. destruct (cf_test cf); injection E as _ _ <-; exact I.
Qed.
Lemma loop_cycles en p data fwd raw c l : forall k added rp cy eff l' rp' cy', stanza_loop H G cf en p data fwd raw l k added rp cy = Ok (eff, l', rp', cy') -> In c cy -> In c cy'.
Proof.
  induction l as [|a l IH]; intros k added rp cy eff l' rp' cy' E I; cbn [stanza_loop] in E.
  - injection E as _ _ _ <-. exact I.
  - assert (NX : forall a' ad rp1 cy1 e1, In c cy1 -> match stanza_loop H G cf en p data fwd raw l (k + 1) ad rp1 cy1 with Fault => Fault | Ok (eff', r', rp', cy') => Ok (e1 ++ eff', a' :: r', rp', cy') end = Ok (eff, l', rp', cy') -> In c cy').
    { intros a' ad rp1 cy1 e1 I1 Q. destruct (stanza_loop H G cf en p data fwd raw l (k + 1) ad rp1 cy1) as [[[[e2 r2] rp2] cy2]|] eqn:Q2; [|discriminate]. injection Q as _ _ _ <-. eapply IH; eauto. }
    destruct (negb (src_dst_check a p)); [eapply NX; eauto|]. destruct (check_stanza_expiration (e_now en) a) as [live a1]. destruct (negb live); [eapply NX; eauto|].
    destruct (decrypt_packet H G a1 data) as [[[cx sg]|]|]; try discriminate; [|eapply NX; eauto].
    set (X := match raw with Some dg => _ | None => _ end) in E. destruct X as [[okd ad] rp1]. destruct (negb okd); [eapply NX; eauto|].
    destruct (handle_gpg_sigs _ _ _ _) as [[|]|]; try discriminate; [|eapply NX; eauto].
    destruct (checks _ _ _ _ _ _) as [[| |d]|]; try discriminate.
    + eapply NX; eauto.
    + injection E as _ _ _ <-. exact I.
    + destruct (act cf (e_now en) a1 k d cy) as [[[[|] e1] cy1]|] eqn:A; try discriminate; pose proof (act_cycles _ _ _ _ _ _ _ _ c A I); [eapply NX; eauto|]. injection E as _ _ _ <-. auto.
Qed.
Lemma incoming_cycles en p st eff st' c : incoming_spa H G cf en p st = Ok (eff, st') -> In c (st_cycles st) -> In c (st_cycles st').
Proof.
  unfold incoming_spa. intros E I. destruct (preprocess cf p) as [[[data fwd]|]|]; try discriminate; [|injection E as _ <-; exact I].
  destruct (negb _); [injection E as _ <-; exact I|]. set (X := if yes _ then _ else _) in E. destruct X as [[raw|]|]; try discriminate; [|injection E as _ <-; exact I].
  destruct (stanza_loop _ _ _ _ _ _ _ _ _ _ _ _ _) as [[[[e2 r2] rp2] cy2]|] eqn:Q; [|discriminate]. injection E as _ <-. cbn [st_cycles]. eapply loop_cycles; eauto.
Qed.
Lemma take_cycles l t w log w' c : turn_of l t -> T1 t w = Ok (log, w') -> In c (st_cycles (fst w)) -> In c (st_cycles (fst w')).
Proof.
  destruct w as [st s]. intros TO E I. cbn [fst] in I. destruct t; cbn [turn_of] in TO; try contradiction; cbn [take] in E.
  - destruct (incoming_spa H G cf en p st) as [[eff st']|] eqn:Q; [|discriminate]. cbn [bind] in E. destruct (grants _ _ _ _ _ _ _ _) as [s'|]; [|discriminate]. cbn [bind] in E.
    injection E as _ <-. cbn [fst]. eapply incoming_cycles; eauto.
  - destruct (check_firewall_rules _ _ _ _ _ _) as [s'|]; [|discriminate]. cbn [bind] in E. injection E as _ <-. exact I.
Qed.
Theorem rounds_cycles l v w x y c : zlen (v_array v) = 1501 -> RR l v w = Ok (x, y) -> In c (st_cycles (fst w)) -> In c (st_cycles (fst (world_after y))).
Proof.
  intros LA E I. destruct (rounds_turns l v w x y LA E) as (_ & ts & log & TS & FA & _). clear E. revert w log TS I. induction ts as [|t ts IH]; intros w log TS I; cbn [turns] in TS.
  - injection TS as _ <-. exact I.
  - inversion FA as [|? ? F1 F2]; subst. destruct (T1 t w) as [[l1 w1]|] eqn:Q; [|discriminate]. cbn [bind] in TS. destruct (TT ts w1) as [[l2 w2]|] eqn:Q2; [|discriminate]. cbn [bind] in TS. injection TS as _ E2.
    apply (IH F2 w1 l2); [congruence|]. eapply take_cycles; eauto.
Qed.
(** ** When the loop ends, exactly *)
Definition stop_flag (f : M_life.flags) : bool := M_life.f_int f || M_life.f_term f || M_life.f_hup f.
Lemma packets_keeps ps : forall v w x v' w', PP ps v w = Ok (x, v', w') ->
  v_flags v' = v_flags v /\ v_break v' = v_break v /\ v_errors v' = v_errors v /\ v_packets v' = v_packets v.
Proof.
  induction ps as [|q ps IH]; intros v w x v' w' E; cbn [packets] in E; [injection E as _ <- _; auto|].
  destruct (seen (q_bytes q)) as [[[d i]|]|]; try discriminate; cbn [bind] in E.
  - destruct (T1 _ w) as [[l1 w1]|]; [|discriminate]. cbn [bind] in E. destruct (PP ps _ w1) as [[[x1 v1] w2]|] eqn:Q; [|discriminate]. cbn [bind] in E. injection E as <- <- <-. apply IH in Q. exact Q.
  - destruct (PP ps v w) as [[[x1 v1] w2]|] eqn:Q; [|discriminate]. cbn [bind] in E. injection E as <- <- <-. apply IH in Q. exact Q.
Qed.
Lemma handlers_quiet sigs : forall f, (forall g, In g sigs -> ~ stops g) -> stop_flag (fold_left (fun f g => M_life.sig_handler g f) sigs f) = stop_flag f.
Proof.
  induction sigs as [|g sigs IH]; intros f N; [reflexivity|]. cbn [fold_left]. rewrite IH by (intros g' I; apply N; right; exact I).
  pose proof (N g (or_introl eq_refl)) as NG. unfold stops in NG. destruct g; try reflexivity; exfalso; apply NG; auto.
Qed.
Lemma look_flag v : stop_flag (v_flags (look v)) = stop_flag (v_flags v).
Proof.
  unfold look, stop_flag. destruct v as [f b e p a]. destruct f. cbn. repeat match goal with |- context [if ?c then _ else _] => is_var c; destruct c; cbn end;
    repeat match goal with |- context [if ?c then _ else _] => destruct c eqn:?; cbn end; auto.
Qed.
Lemma look_break v : v_break (look v) = v_break v || (M_life.f_got (v_flags v) && stop_flag (v_flags v)).
Proof.
  unfold look, stop_flag. destruct v as [f b e p a]. destruct f as [got i t h u1 u2 c]. cbn. destruct c, got; cbn; rewrite ?orb_false_r; auto;
    destruct (_ || _ || _); cbn; rewrite ?orb_true_r, ?orb_false_r; auto; destruct (_ || _); reflexivity.
Qed.
Lemma told_dec (sigs : list M_life.signal) : (exists g, In g sigs /\ stops g) \/ (forall g, In g sigs -> ~ stops g).
Proof.
  induction sigs as [|g sigs [(g' & I & S)|N]]; [right; intros g []|left; exists g'; split; [right; exact I|exact S]|].
  assert (D : stops g \/ ~ stops g) by (unfold stops; destruct g; auto; right; intros [X|[X|X]]; discriminate).
  destruct D as [D|D]; [left; exists g; split; [left; reflexivity|exact D]|right]. intros g' [<-|I]; auto.
Qed.
(** A flag for a signal that was seen means that the loop is to be left. *)
Definition coherent (v : vars) : Prop := stop_flag (v_flags v) = true -> v_break v = true.
Lemma looked sigs v : coherent v ->
  let v0 := look (mkVars (fold_left (fun f g => M_life.sig_handler g f) sigs (v_flags v)) (v_break v) (v_errors v) (v_packets v) (v_array v)) in
  coherent v0 /\ (v_break v0 = true <-> v_break v = true \/ exists g, In g sigs /\ stops g).
Proof.
  intros C v0. subst v0. set (v1 := mkVars _ _ _ _ _). pose proof (look_break v1) as B. pose proof (look_flag v1) as F. cbn [v_break v_flags v1] in B, F.
  destruct (told_dec sigs) as [T|N].
  - destruct (flags_stop sigs (v_flags v) T) as (X & Y). fold (stop_flag (fold_left (fun f g => M_life.sig_handler g f) sigs (v_flags v))) in Y.
    rewrite X, Y in B. cbn [andb] in B. rewrite orb_true_r in B. split; [intros _; exact B|]. split; [auto|intros _; exact B].
  - rewrite (handlers_quiet sigs _ N) in B, F. unfold coherent. rewrite F, B. split.
    + intro S. rewrite (C S). reflexivity.
    + split.
      * intro O. apply orb_prop in O as [O|O]; [auto|]. apply andb_prop in O as [_ O]. left. exact (C O).
      * intros [O|(g & I & S)]; [rewrite O; reflexivity|]. exfalso. exact (N g I S).
Qed.
Definition reached (c : Z) : Prop := limit <> 0 /\ limit <= c.
Lemma round_exact sigs r now v w x y : coherent v -> R1 sigs r now v w = Ok (x, y) ->
  ((exists v' w', y = GaveUp v' w') <-> r = Failed /\ 100 < v_errors v) /\
  ((exists v' w', y = Left v' w') <-> r = Nothing /\ (v_break v = true \/ exists g, In g sigs /\ stops g)) /\
  (forall v' w', y = On v' w' -> coherent v' /\
     v_errors v' = (match r with Failed => v_errors v + 1 | Nothing => 0 | Got _ _ => v_errors v end) /\
     v_packets v' = (match r with Got n _ => u32 (v_packets v + n) | _ => v_packets v end) /\
     (v_break v' = true <-> v_break v = true \/ (exists g, In g sigs /\ stops g) \/ (exists n ps, r = Got n ps /\ reached (v_packets v')))).
Proof.
  intros C E. unfold round in E. destruct (looked sigs v C) as (C0 & B0). cbv zeta in C0, B0. set (v0 := mkVars _ _ _ _ _) in E, C0, B0.
  destruct (look_packets v0) as (LP & LE). change (v_packets v0) with (v_packets v) in LP. change (v_errors v0) with (v_errors v) in LE.
  destruct r as [n ps| |].
  - destruct (PP ps (look v0) w) as [[[x1 v1] w1]|] eqn:Q; [|discriminate]. cbn [bind] in E.
    destruct (finish _ _ _ _ _ _ _ _ _ _) as [y1|] eqn:F; [|discriminate]. cbn [bind] in E. injection E as <- <-. destruct (finish_on _ _ _ _ F) as (log & w' & -> & _).
    destruct (packets_keeps _ _ _ _ _ _ Q) as (K1 & K2 & K3 & K4).
    split; [split; [intros (? & ? & X); discriminate X|intros (X & _); discriminate X]|]. split; [split; [intros (? & ? & X); discriminate X|intros (X & _); discriminate X]|].
    intros v' w2 X. injection X as <- <-. unfold count, coherent. cbn [v_flags v_break v_errors v_packets]. rewrite K1, K2, K3, K4, LP, LE.
    split; [intro S; rewrite (C0 S); reflexivity|]. split; [reflexivity|]. split; [reflexivity|].
    assert (RR1 : negb (limit =? 0) && (limit <=? u32 (v_packets v + n)) = true <-> reached (u32 (v_packets v + n))).
    { unfold reached. rewrite andb_true_iff, negb_true_iff, Z.eqb_neq, Z.leb_le. reflexivity. }
    rewrite orb_true_iff, B0, RR1. split; [intros [[X|X]|X]; auto; right; right; exists n, ps; auto|]. intros [X|[X|(n' & ps' & X & Y)]]; auto.
  - destruct (v_errors (look v0) >? MAX_NFQ_ERRORS_BEFORE_BAIL) eqn:V; rewrite LE in V; unfold MAX_NFQ_ERRORS_BEFORE_BAIL in V.
    + injection E as <- <-. split; [split; [intros _; split; [reflexivity|lia]|eauto]|]. split; [split; [intros (? & ? & X); discriminate X|intros (X & _); discriminate X]|]. discriminate.
    + destruct (finish _ _ _ _ _ _ _ _ _ _) as [y1|] eqn:F; [|discriminate]. cbn [bind] in E. injection E as <- <-. destruct (finish_on _ _ _ _ F) as (log & w' & -> & _).
      split; [split; [intros (? & ? & X); discriminate X|intros (_ & X); lia]|]. split; [split; [intros (? & ? & X); discriminate X|intros (X & _); discriminate X]|].
      intros v' w2 X. injection X as <- <-. unfold coherent. cbn [with_errors v_flags v_break v_errors v_packets]. rewrite LP, LE. split; [exact C0|]. split; [reflexivity|]. split; [reflexivity|].
      rewrite B0. split; [intros [X|X]; auto|]. intros [X|[X|(n' & ps' & X & Y)]]; auto. discriminate.
  - destruct (v_break (look v0)) eqn:V.
    + injection E as <- <-. split; [split; [intros (? & ? & X); discriminate X|intros (X & _); discriminate X]|]. split; [split; [intros _; split; [reflexivity|apply B0; reflexivity]|eauto]|]. discriminate.
    + destruct (finish _ _ _ _ _ _ _ _ _ _) as [y1|] eqn:F; [|discriminate]. cbn [bind] in E. injection E as <- <-. destruct (finish_on _ _ _ _ F) as (log & w' & -> & _).
      split; [split; [intros (? & ? & X); discriminate X|intros (X & _); discriminate X]|]. split; [split; [intros (? & ? & X); discriminate X|intros (_ & X); apply B0 in X; discriminate X]|].
      intros v' w2 X. injection X as <- <-. unfold coherent. cbn [with_errors v_flags v_break v_errors v_packets]. rewrite LP. split; [exact C0|]. split; [reflexivity|]. split; [reflexivity|].
      rewrite V, B0. split; [intros [X|X]; auto|]. intros [X|[X|(n' & ps' & X & Y)]]; auto. discriminate.
Qed.
Lemma rounds_app l1 : forall l2 v w x1 v1 w1, RR l1 v w = Ok (x1, On v1 w1) -> RR (l1 ++ l2) v w = (get (x2, y) <- RR l2 v1 w1; Ok (x1 ++ x2, y)).
Proof.
  induction l1 as [|[[s r] now] l1 IH]; intros l2 v w x1 v1 w1 E.
  - cbn in E. injection E as <- <- <-. cbn [app]. destruct (RR l2 v w) as [[x y]|]; reflexivity.
  - cbn [rounds app] in *. destruct (R1 s r now v w) as [[x0 y0]|]; [|discriminate]. cbn [bind] in *. destruct y0 as [v0 w0|v0 w0|v0 w0]; try discriminate.
    destruct (RR l1 v0 w0) as [[x3 y3]|] eqn:Q; [|discriminate]. cbn [bind] in *. injection E as <- ->. rewrite (IH l2 _ _ _ _ _ Q).
    destruct (RR l2 v1 w1) as [[x y]|]; [|reflexivity]. cbn [bind]. rewrite app_assoc. reflexivity.
Qed.
Lemma rounds_prefix l1 : forall l2 v w x y v' w', RR (l1 ++ l2) v w = Ok (x, y) -> y = On v' w' -> exists x1 v1 w1, RR l1 v w = Ok (x1, On v1 w1).
Proof.
  induction l1 as [|[[s r] now] l1 IH]; intros l2 v w x y v' w' E ->; [exists [], v, w; reflexivity|].
  cbn [rounds app] in *. destruct (R1 s r now v w) as [[x0 y0]|]; [|discriminate]. cbn [bind] in *. destruct y0 as [v0 w0|v0 w0|v0 w0]; try discriminate.
  destruct (RR (l1 ++ l2) v0 w0) as [[x3 y3]|] eqn:Q; [|discriminate]. cbn [bind] in E. injection E as <- ->. destruct (IH _ _ _ _ _ _ _ Q eq_refl) as (x1 & v1 & w1 & E1).
  exists (x0 ++ x1), v1, w1. rewrite E1. reflexivity.
Qed.
Definition amounts (l : list a_round) : Prop := forall s n ps t, In (s, Got n ps, t) l -> 0 <= n.
Lemma bytes_nonneg l : amounts l -> forall k, k <= fold_left (fun n (x : a_round) => match snd (fst x) with Got m _ => n + m | _ => n end) l k.
Proof.
  induction l as [|[[s r] t] l IH]; intros A k; cbn [fold_left fst snd]; [lia|]. assert (A' : amounts l) by (intros s' n ps t' I; apply (A s' n ps t'); right; exact I).
  destruct r as [n ps| |]; try (apply IH; exact A'). pose proof (A s n ps t (or_introl eq_refl)). specialize (IH A' (k + n)). lia.
Qed.
Lemma rounds_exact array l w x v' w' : amounts l -> bytes_received l < 4294967296 -> 0 <= limit -> RR l (begun array) w = Ok (x, On v' w') ->
  coherent v' /\ v_errors v' = errors_since l /\ v_packets v' = bytes_received l /\ (v_break v' = true <-> told l \/ (0 < limit <= bytes_received l)).
Proof.
  intros A B LI. revert x v' w'. induction l as [|[[s r] t] l IH] using rev_ind; intros x v' w' E.
  - cbn in E. injection E as _ <- _. split; [intro X; discriminate X|]. split; [reflexivity|]. split; [reflexivity|]. cbn [begun v_break]. split; [discriminate|].
    intros [(? & ? & ? & ? & [] & _)|X]. cbn in X. lia.
  - assert (A' : amounts l) by (intros s' n ps t' I; apply (A s' n ps t'); apply in_or_app; left; exact I).
    assert (BB : bytes_received (l ++ [((s, r, t) : a_round)]) = match r with Got n _ => bytes_received l + n | _ => bytes_received l end).
    { unfold bytes_received. rewrite fold_left_app. reflexivity. }
    assert (EE : errors_since (l ++ [((s, r, t) : a_round)]) = match r with Failed => errors_since l + 1 | Nothing => 0 | Got _ _ => errors_since l end).
    { unfold errors_since. rewrite fold_left_app. reflexivity. }
    assert (P0 : 0 <= bytes_received l) by (apply (bytes_nonneg l A' 0)).
    assert (NN : forall n ps, r = Got n ps -> 0 <= n) by (intros n ps ->; apply (A s n ps t); apply in_or_app; right; left; reflexivity).
    assert (B' : bytes_received (l ++ [((s, r, t) : a_round)]) < 4294967296) by exact B. clear B. rename B' into B.
    assert (BL : bytes_received l < 4294967296). { rewrite BB in B. destruct r as [n ps| |]; try lia. pose proof (NN n ps eq_refl). lia. }
    destruct (rounds_prefix l _ _ _ _ _ _ _ E eq_refl) as (x1 & v1 & w1 & E1). rewrite (rounds_app _ _ _ _ _ _ _ E1) in E.
    destruct (IH A' BL _ _ _ E1) as (C1 & E2 & E3 & E4). cbn [rounds] in E. destruct (R1 s r t v1 w1) as [[x2 y2]|] eqn:Q; [|discriminate].
    cbn [bind] in E. destruct y2 as [v2 w2|v2 w2|v2 w2]; cbn [bind] in E; try discriminate. injection E as _ <- _.
    destruct (round_exact _ _ _ _ _ _ _ C1 Q) as (_ & _ & K). destruct (K _ _ eq_refl) as (C2 & K1 & K2 & K3).
    rewrite E2 in K1. rewrite E3 in K2. split; [exact C2|]. rewrite EE, BB. split; [exact K1|].
    assert (K2' : v_packets v2 = match r with Got n _ => bytes_received l + n | _ => bytes_received l end).
    { rewrite K2. destruct r as [n ps| |]; auto. apply Z.mod_small. pose proof (NN n ps eq_refl). rewrite BB in B. lia. }
    split; [exact K2'|]. rewrite K3, E4. unfold told.
    assert (T1 : (exists g, In g s /\ stops g) \/ told l <-> told (l ++ [((s, r, t) : a_round)])).
    { unfold told. split.
      - intros [(g & I & S)|(s' & r' & t' & g & I & J)]; [exists s, r, t, g|exists s', r', t', g]; (split; [apply in_or_app|]); auto. right. left. reflexivity.
      - intros (s' & r' & t' & g & I & J & S). apply in_app_or in I as [I|[I|[]]]; [right; exists s', r', t', g; auto|]. injection I as <- <- <-. left. exists g. auto. }
    fold (told l). fold (told (l ++ [((s, r, t) : a_round)])). rewrite <- T1. unfold reached. rewrite K2'. split.
    + intros [[X|X]|[X|(n & ps & -> & X)]]; auto; right; [destruct r as [n ps| |]; try exact X; pose proof (NN n ps eq_refl); lia|lia].
    + intros [[X|X]|X]; auto. destruct r as [n ps| |]; auto. right. right. exists n, ps. split; [reflexivity|lia].
Qed.
Theorem next_round array l w x v1 w1 sigs r now x' y : amounts l -> bytes_received l < 4294967296 -> 0 <= limit ->
  RR l (begun array) w = Ok (x, On v1 w1) -> RR (l ++ [(sigs, r, now)]) (begun array) w = Ok (x', y) ->
  ((exists v2 w2, y = GaveUp v2 w2) <-> r = Failed /\ 101 <= errors_since l) /\
  ((exists v2 w2, y = Left v2 w2) <-> r = Nothing /\ (told (l ++ [(sigs, r, now)]) \/ 0 < limit <= bytes_received l)).
Proof.
  intros A B LI E E'. destruct (rounds_exact array l w x v1 w1 A B LI E) as (C & E1 & E2 & E3). rewrite (rounds_app _ _ _ _ _ _ _ E) in E'. cbn [rounds] in E'.
  destruct (R1 sigs r now v1 w1) as [[x2 y2]|] eqn:Q; [|discriminate]. cbn [bind] in E'.
  assert (y = y2) as ->. { destruct y2; cbn [bind] in E'; injection E' as _ <-; reflexivity. }
  destruct (round_exact _ _ _ _ _ _ _ C Q) as (K1 & K2 & _). rewrite K1, K2, E1, E3. split; [split; intros (X & Y); (split; [exact X|lia])|].
  assert (T : told (l ++ [(sigs, r, now)]) <-> told l \/ exists g, In g sigs /\ stops g).
  { unfold told. split.
    - intros (s' & r' & t' & g & I & J & S). apply in_app_or in I as [I|[I|[]]]; [left; exists s', r', t', g; auto|]. injection I as <- <- <-. right. exists g. auto.
    - intros [(s' & r' & t' & g & I & J)|(g & I & S)]; [exists s', r', t', g|exists sigs, r, now, g]; (split; [apply in_or_app|]); auto. right. left. reflexivity. }
  rewrite T. tauto.
Qed.
End Machine.
