(** Proofs about the reading of fwknopd.conf. *)
From Verif Require Import Bytes M_base64 M_util M_message M_codec M_access M_replay M_conf S_text S_conf
  P_bytes P_util P_util2 P_access P_replay.
From Coq Require Import Init.Byte List ZArith Bool Lia Permutation.
Import ListNotations.
Open Scope Z_scope.

(** ** span *)
Lemma span_app p a b : Forall (fun c => p c = true) a -> (b = [] \/ p (hd x00 b) = false) -> span p (a ++ b) = (a, b).
Proof.
  induction 1 as [|c a Hc _ IH]; intros Hb.
  - cbn [app]. destruct b as [|c b]; [reflexivity|]. destruct Hb as [?|Hb]; [discriminate|]. cbn in *. now rewrite Hb.
  - cbn [app span]. rewrite Hc, IH by auto. reflexivity.
Qed.
Lemma span_split p s a b : span p s = (a, b) -> s = a ++ b /\ Forall (fun c => p c = true) a /\ (b = [] \/ p (hd x00 b) = false).
Proof.
  revert a b. induction s as [|c s IH]; cbn; intros a b E.
  - inversion E; subst. auto.
  - destruct (p c) eqn:P.
    + destruct (span p s) as [a' b']. inversion E; subst. destruct (IH _ _ eq_refl) as (-> & F & H). auto.
    + inversion E; subst. cbn. auto.
Qed.
Lemma span_snoc p s x a b : p x = false -> span p s = (a, b) -> span p (s ++ [x]) = (a, b ++ [x]).
Proof.
  intros P E. destruct (span_split _ _ _ _ E) as (-> & F & H). rewrite <- app_assoc. apply span_app; auto.
  right. destruct H as [->|H]; [exact P|]. destruct b; [exact P|exact H].
Qed.
Lemma skip_space_snoc s x : isspace x = true -> skip_space (s ++ [x]) = match skip_space s with [] => [] | t => t ++ [x] end.
Proof.
  intros X. induction s as [|c s IH]; cbn; [now rewrite X|]. destruct (isspace c); auto.
Qed.

(** ** The end of the line does not matter *)
Lemma scan_line_nl s : scan_line (s ++ [x0a]) = scan_line s.
Proof.
  unfold scan_line. rewrite skip_space_snoc by reflexivity. destruct (skip_space s) as [|c t] eqn:E; [reflexivity|].
  destruct (span (fun c => negb (isspace c)) (c :: t)) as [var r] eqn:V.
  rewrite (span_snoc (fun c => negb (isspace c)) (c :: t) x0a var r eq_refl V). destruct var; [reflexivity|].
  rewrite skip_space_snoc by reflexivity. destruct (skip_space r) as [|d u] eqn:E2; [reflexivity|].
  destruct (span value_char (d :: u)) as [val r'] eqn:W.
  rewrite (span_snoc value_char (d :: u) x0a val r' eq_refl W). reflexivity.
Qed.

Lemma cstr_id s : ~ In x00 s -> cstr s = s.
Proof.
  induction s as [|c s IH]; intros N; [reflexivity|]. cbn. rewrite (proj2 (beq_neq c x00)).
  - rewrite IH; auto. intros I; apply N; now right.
  - intros ->. apply N. now left.
Qed.

Lemma empty_line_comment l : ~ In x00 l -> is_empty_line (hd x00 l) = true <-> comment l.
Proof.
  intros N. unfold is_empty_line, comment. destruct l as [|c l]; cbn [hd].
  - split; [auto|reflexivity].
  - split.
    + intros H; right.
      destruct (beq_spec c "#"%byte) as [->|]; [cbn; tauto|]. destruct (beq_spec c x0a) as [->|]; [cbn; tauto|].
      destruct (beq_spec c x0d) as [->|]; [cbn; tauto|]. destruct (beq_spec c ";"%byte) as [->|]; [cbn; tauto|].
      destruct (beq_spec c x00) as [->|]; [exfalso; apply N; now left|discriminate].
    + intros [?|H]; [discriminate|]. cbn in H.
      repeat match goal with H : _ \/ _ |- _ => destruct H as [H|H] end; try contradiction; subst c; reflexivity.
Qed.

Lemma config_line_nl own l st : ~ In x00 l -> config_line own (l ++ [x0a]) st = config_line own l st.
Proof.
  intros N. unfold config_line. rewrite !cstr_id; auto.
  2: { intros I. apply in_app_or in I. destruct I as [I|[I|[]]]; [auto|discriminate]. }
  rewrite scan_line_nl. destruct l as [|c l]; reflexivity.
Qed.

(** ** The lines of a file *)
Fixpoint run (own : bool) (lines : list bytes) (st : cstate) : outcome cstate :=
  match lines with
  | [] => Ok st
  | l :: r => match config_line own l st with Fault => Fault | Ok st' => run own r st' end
  end.

Lemma run_app own a : forall b st, run own (a ++ b) st = match run own a st with Fault => Fault | Ok st' => run own b st' end.
Proof.
  induction a as [|l a IH]; intros b st; [reflexivity|]. cbn [app run]. destruct (config_line own l st); auto.
Qed.

Lemma fgets_all n : forall w, ~ In x0a w -> (length w <= n)%nat -> fgets n w = (w, []).
Proof.
  induction n as [|n IH]; intros [|c w] N L; cbn in L; try reflexivity; [lia|].
  cbn [fgets]. rewrite (proj2 (beq_neq c x0a)) by (intros ->; apply N; now left).
  rewrite IH; [reflexivity|intros I; apply N; now right|lia].
Qed.

Lemma config_lines_run own lines : Forall line_ok lines -> forall fuel st, (length (file lines) <= fuel)%nat ->
  config_lines fuel own (file lines) st = run own lines st.
Proof.
  assert (ZL : forall w : bytes, zlen w <= 1022 -> (length w < Z.to_nat (MAX_LINE_LEN - 1))%nat)
    by (intros w; unfold zlen, MAX_LINE_LEN; lia).
  induction 1 as [|l lines (NL & N0 & LE) _ IH]; intros fuel st LF.
  - destruct fuel; reflexivity.
  - assert (E0 : l = [] -> config_line own l st = Ok st) by (intros ->; reflexivity).
    unfold file in *. destruct lines as [|l2 lines].
    + cbn [join run] in *. destruct fuel as [|fuel].
      * destruct l; [|cbn in LF; lia]. reflexivity.
      * destruct l as [|c l]; [reflexivity|]. cbn [config_lines].
        rewrite fgets_all; [|auto|apply Nat.lt_le_incl, ZL; exact LE].
        destruct (config_line own (c :: l) st); [|reflexivity]. destruct fuel; reflexivity.
    + change (join [x0a] (l :: l2 :: lines)) with (l ++ [x0a] ++ join [x0a] (l2 :: lines)) in *.
      assert (LB : (length (l ++ [x0a] ++ join [x0a] (l2 :: lines)) = length l + S (length (join [x0a] (l2 :: lines))))%nat)
        by (rewrite !app_length; reflexivity).
      destruct fuel as [|fuel]; [lia|].
      assert (NE : exists c t, l ++ [x0a] ++ join [x0a] (l2 :: lines) = c :: t) by (destruct l; eexists; eexists; reflexivity).
      destruct NE as (c & t & NE). cbn [config_lines]. rewrite NE. cbv iota. rewrite <- NE.
      cbn [app]. rewrite (fgets_line _ l (join [x0a] (l2 :: lines))).
      2: { apply Forall_forall. intros x I ->. auto. }
      2: { apply ZL; auto. }
      rewrite config_line_nl by auto. change (run own (l :: l2 :: lines) st)
        with (match config_line own l st with Fault => Fault | Ok st' => run own (l2 :: lines) st' end).
      destruct (config_line own l st); [|reflexivity]. apply IH. lia.
Qed.

Lemma parse_run own lines cf : Forall line_ok lines ->
  parse_config_file own (file lines) cf = match run own lines (mkCs cf [] [] false) with Fault => Fault | Ok st => Ok (cs_config st) end.
Proof. intros F. unfold parse_config_file. rewrite config_lines_run; auto. Qed.

(** ** What a line says *)
Lemma value_char_stops c : value_char c = true <-> ~ stops c.
Proof.
  unfold value_char, stops. cbn [In]. destruct (beq_spec c ";"%byte), (beq_spec c x0a), (beq_spec c x0d); subst; cbn; split; intuition congruence.
Qed.
Lemma nonspace_blank c : negb (isspace c) = true <-> ~ blank c.
Proof. rewrite negb_true_iff. apply isspace_not_blank. Qed.

Lemma hd_app (a b : bytes) : a <> [] -> hd x00 (a ++ b) = hd x00 a.
Proof. destruct a; [congruence|reflexivity]. Qed.

Lemma written_scan l n v t : written l n v t -> scan_line l = Some (n, v ++ t).
Proof.
  intros (_ & sp1 & sp2 & rest & -> & F1 & NN & FN & N2 & F2 & NV & HV & LV & FV & FT & R).
  unfold scan_line.
  rewrite skip_space_spec; auto.
  2: { rewrite hd_app by auto. destruct n; [congruence|]. inversion FN; auto. }
  rewrite span_app.
  2: { eapply Forall_impl; [|exact FN]. intros c. apply nonspace_blank. }
  2: { right. rewrite hd_app by auto. destruct sp2; [congruence|]. inversion F2; subst. cbn. rewrite (proj2 (isspace_blank b)); auto. }
  destruct n as [|c n]; [congruence|].
  rewrite skip_space_spec; auto.
  2: { rewrite hd_app by auto. auto. }
  rewrite app_assoc, span_app.
  2: { apply Forall_app; split; eapply Forall_impl; [|exact FV| |exact FT]; intros d; rewrite value_char_stops; tauto. }
  2: { destruct R as [R|R]; [auto|right]. destruct (value_char (hd x00 rest)) eqn:E; [|reflexivity]. apply value_char_stops in E. contradiction. }
  destruct v; [congruence|reflexivity].
Qed.

Lemma rtrim_split s : exists t, s = rtrim s ++ t /\ Forall blank t /\ (rtrim s <> [] -> ~ blank (last (rtrim s) x00)).
Proof.
  unfold rtrim. destruct (skip_space_split (rev s)) as (sp & E & F & N).
  exists (rev sp). split; [|split].
  - rewrite <- rev_app_distr, <- E. now rewrite rev_involutive.
  - now apply Forall_rev.
  - intros NE. destruct (skip_space (rev s)) as [|c u]; [cbn in NE; congruence|]. cbn in N |- *. now rewrite last_last.
Qed.
Lemma rtrim_spec v t : (v <> [] -> ~ blank (last v x00)) -> Forall blank t -> rtrim (v ++ t) = v.
Proof.
  intros L F. unfold rtrim. rewrite rev_app_distr, skip_space_spec; [apply rev_involutive|now apply Forall_rev|].
  destruct v as [|v c _] using rev_ind.
  - cbn. intros [H|H]; revert H; vm_compute; [discriminate|]. intros [H _]; now apply H.
  - rewrite rev_unit. cbn. rewrite last_last in L. exact (L (fun e => app_cons_not_nil _ _ _ (eq_sym e))).
Qed.

Lemma scan_written l n val : ~ comment l -> scan_line l = Some (n, val) -> exists v t, val = v ++ t /\ written l n v t.
Proof.
  intros NC E. unfold scan_line in E.
  destruct (skip_space_split l) as (sp1 & E1 & F1 & _).
  destruct (span (fun c => negb (isspace c)) (skip_space l)) as [var r] eqn:V.
  destruct (span_split _ _ _ _ V) as (EV & FV & RV).
  destruct var as [|c0 var]; [discriminate|].
  destruct (skip_space_split r) as (sp2 & E2 & F2 & H2).
  destruct (span value_char (skip_space r)) as [val' r'] eqn:W.
  destruct (span_split _ _ _ _ W) as (EW & FW & RW).
  destruct val' as [|c1 val']; [discriminate|]. inversion E; subst. clear E.
  destruct (rtrim_split (c1 :: val')) as (t & ET & FT & LT).
  assert (B1 : ~ blank c1) by (rewrite EW in H2; exact H2).
  assert (NV : rtrim (c1 :: val') <> []).
  { intros Z. rewrite Z in ET. cbn in ET. subst t. inversion FT; subst. contradiction. }
  assert (FS : Forall (fun c => ~ stops c) (c1 :: val')) by (eapply Forall_impl; [|exact FW]; intros d; apply value_char_stops).
  pose proof FS as FS2. rewrite ET in FS2. apply Forall_app in FS2. destruct FS2 as [FSV FST].
  exists (rtrim (c1 :: val')), t. split; [exact ET|]. split; [exact NC|].
  exists sp1, sp2, r'. 
  assert (HV : hd x00 (rtrim (c1 :: val')) = c1).
  { destruct (rtrim (c1 :: val')) as [|d u]; [congruence|]. cbn in ET. inversion ET. reflexivity. }
  repeat match goal with |- _ /\ _ => split end; auto.
  - rewrite E1 at 1. f_equal. rewrite EV. f_equal. rewrite E2. f_equal. rewrite EW. rewrite ET at 1. now rewrite <- app_assoc.
  - discriminate.
  - eapply Forall_impl; [|exact FV]; intros d; apply nonspace_blank.
  - intros ->. cbn [app] in E2. destruct RV as [->|RV]; [cbn in EW; discriminate|].
    rewrite negb_false_iff in RV. apply isspace_blank in RV. rewrite E2 in RV. contradiction.
  - rewrite HV. auto.
  - apply Forall_forall. intros d I. split; [eapply Forall_forall in FT; eauto|eapply Forall_forall in FST; eauto].
  - destruct RW as [->|RW]; [auto|right]. destruct (in_dec byte_eq_dec (hd x00 r') [";"%byte; x0a; x0d]); auto.
    exfalso. assert (value_char (hd x00 r') = true) by (apply value_char_stops; auto). congruence.
Qed.

Lemma written_unique l n v t n' v' t' : written l n v t -> written l n' v' t' -> n = n' /\ v = v' /\ t = t'.
Proof.
  intros W W'. pose proof (written_scan _ _ _ _ W) as E. pose proof (written_scan _ _ _ _ W') as E'.
  rewrite E in E'. inversion E'; subst n'. 
  destruct W as (_ & ? & ? & ? & _ & _ & _ & _ & _ & _ & NV & _ & LV & _ & FT & _).
  destruct W' as (_ & ? & ? & ? & _ & _ & _ & _ & _ & _ & NV' & _ & LV' & _ & FT' & _).
  assert (EV : v = v').
  { rewrite <- (rtrim_spec v t); [rewrite <- (rtrim_spec v' t')|auto|]; [congruence|auto| |];
      (eapply Forall_impl; [|eassumption]; intros c [? _]; auto). }
  subst v'. split; auto. split; auto. eapply app_inv_head; eauto.
Qed.

Lemma chop_written l n v t : written l n v t -> 2 <= zlen v \/ t = [] -> chop_whitespace (v ++ t) = v.
Proof.
  intros (_ & ? & ? & ? & _ & _ & _ & _ & _ & _ & NV & _ & LV & _ & FT & _) H.
  assert (FB : Forall blank t) by (eapply Forall_impl; [|exact FT]; intros c [? _]; auto).
  destruct v as [|c v]; [congruence|]. cbn [app chop_whitespace].
  destruct v as [|d v].
  - destruct H as [H| ->]; [exfalso; unfold zlen in H; cbn [length] in H; lia|]. cbn. reflexivity.
  - change (last (c :: d :: v) x00) with (last (d :: v) x00) in LV.
    rewrite rtrim_spec; auto.
Qed.

(** ** One line *)
Lemma known_In n : known n = true <-> In n config_map.
Proof.
  unfold known. rewrite existsb_exists. split.
  - intros (m & I & E). apply bseq_eq in E. now subst.
  - intros I. exists n. split; auto. apply bseq_refl.
Qed.

Lemma line_silent own l st : line_ok l -> (forall n v, ~ gives l n v) -> cs_freed st = false -> config_line own l st = Ok st.
Proof.
  intros (_ & N0 & _) NG FR. unfold config_line. rewrite cstr_id by auto.
  destruct (is_empty_line (hd x00 l)) eqn:EL; [reflexivity|].
  assert (NC : ~ comment l) by (rewrite <- empty_line_comment by auto; congruence).
  destruct (scan_line l) as [[n val]|] eqn:E; [|now rewrite FR].
  destruct (scan_written _ _ _ NC E) as (v & t & _ & W). exfalso. apply (NG n v). now exists t.
Qed.

Lemma written_line own l n v t st : line_ok l -> written l n v t ->
  config_line own l st =
    let message := if cs_freed st then Fault else Ok st in
    let val := chop_whitespace (v ++ t) in
      if known n then
        let store val st := mkCs (set_entry n val (cs_config st)) (cs_tmp1 st) (cs_tmp2 st)
                                 (cs_freed st || (own && bseq n ($ "CONFIG_FILE"))) in
        match val with
        | c :: t =>
            if beq c "$"%byte then
              let '(r, m, w) := scan_variable t (cs_tmp1 st) (cs_tmp2 st) in
              let st' := mkCs (cs_config st) m w (cs_freed st) in
              if r =? 0 then Ok (store val st')
              else match (if known m then cs_config st m else None) with
                   | Some v => let a := ztake (MAX_LINE_LEN - 1) v in
                               Ok (store (ztake (MAX_LINE_LEN - 1) (a ++ w)) st')
                   | None => if cs_freed st then Fault else Ok st'
                   end
            else Ok (store val st)
        | [] => Ok (store val st)
        end
      else message.
Proof.
  intros (_ & N0 & _) W. unfold config_line. rewrite cstr_id by auto.
  destruct (is_empty_line (hd x00 l)) eqn:EL.
  - apply empty_line_comment in EL; auto. destruct W as [NC _]. contradiction.
  - rewrite (written_scan _ _ _ _ W). reflexivity.
Qed.

Lemma plain_line own l n v st : line_ok l -> plain l -> gives l n v -> cs_freed st = false ->
  (own = true -> n <> $ "CONFIG_FILE") ->
  exists st', config_line own l st = Ok st' /\ cs_freed st' = false /\
    cs_config st' = if known n then set_entry n v (cs_config st) else cs_config st.
Proof.
  intros OK P (t & W) FR OWN. destruct (P _ _ _ W) as [D L].
  rewrite (written_line own _ _ _ _ st OK W). rewrite (chop_written _ _ _ _ W L). cbv zeta.
  rewrite FR. destruct (known n).
  - destruct v as [|c v]; [destruct W as (_ & ? & ? & ? & _ & _ & _ & _ & _ & _ & NV & _); congruence|].
    cbn [hd] in D. rewrite (proj2 (beq_neq c "$"%byte)) by auto.
    eexists. split; [reflexivity|]. cbn [cs_freed cs_config]. split; [|reflexivity].
    rewrite FR. destruct own; cbn [andb orb]; [|reflexivity].
    destruct (bseq n ($ "CONFIG_FILE")) eqn:E; [|reflexivity]. apply bseq_eq in E. exfalso. apply OWN; auto.
  - exists st. auto.
Qed.

Lemma gives_unique l n v n' v' : gives l n v -> gives l n' v' -> n = n' /\ v = v'.
Proof. intros (t & W) (t' & W'). destruct (written_unique _ _ _ _ _ _ _ W W') as (? & ? & _). auto. Qed.

Lemma gives_dec l : line_ok l -> (exists n v, gives l n v) \/ forall n v, ~ gives l n v.
Proof.
  intros (_ & N0 & _). destruct (is_empty_line (hd x00 l)) eqn:EL.
  - right. intros n v (t & NC & _). apply empty_line_comment in EL; auto.
  - assert (NC : ~ comment l) by (rewrite <- empty_line_comment by auto; congruence).
    destruct (scan_line l) as [[n val]|] eqn:E.
    + left. destruct (scan_written _ _ _ NC E) as (v & t & _ & W). exists n, v, t. auto.
    + right. intros n v (t & W). rewrite (written_scan _ _ _ _ W) in E. discriminate.
Qed.

(** ** Files of plain lines *)
Lemma settles_cons l lines n old mid new :
  ((exists v, gives l n v /\ mid = Some v) \/ ((forall v, ~ gives l n v) /\ mid = old)) ->
  settles lines n mid new -> settles (l :: lines) n old new.
Proof.
  intros H [(pre & l' & post & v & -> & G & -> & N)|[N ->]].
  - left. exists (l :: pre), l', post, v. auto.
  - destruct H as [(v & G & ->)|[NG ->]].
    + left. exists [], l, lines, v. repeat split; auto.
    + right. split; auto. intros l' v [<-|I]; auto.
Qed.

Lemma plain_run own lines : Forall line_ok lines -> Forall plain lines ->
  (own = true -> forall l v, In l lines -> ~ gives l ($ "CONFIG_FILE") v) -> forall st, cs_freed st = false ->
  exists st', run own lines st = Ok st' /\ cs_freed st' = false /\
    (forall n, In n config_map -> settles lines n (cs_config st n) (cs_config st' n)) /\
    (forall n, ~ In n config_map -> cs_config st' n = cs_config st n).
Proof.
  induction 1 as [|l lines OK _ IH]; intros PL OWN st FR.
  - exists st. repeat split; auto. intros n _. right. split; auto.
  - inversion PL as [|? ? P1 P2]; subst.
    assert (H : exists st1, config_line own l st = Ok st1 /\ cs_freed st1 = false /\
       (forall n, In n config_map -> (exists v, gives l n v /\ cs_config st1 n = Some v) \/ ((forall v, ~ gives l n v) /\ cs_config st1 n = cs_config st n)) /\
       (forall n, ~ In n config_map -> cs_config st1 n = cs_config st n)).
    { destruct (gives_dec l OK) as [(n & v & G)|NG].
      - destruct (plain_line own l n v st OK P1 G FR) as (st1 & E & F1 & C1).
        { intros O ->. eapply OWN; eauto. now left. }
        exists st1. split; [exact E|]. split; [exact F1|]. rewrite C1. split.
        + intros m K. destruct (list_eq_dec byte_eq_dec m n) as [->|NE].
          * left. exists v. split; auto. rewrite (proj2 (known_In n) K). unfold set_entry. now rewrite bseq_refl.
          * right. split; [intros v' G'; destruct (gives_unique _ _ _ _ _ G G'); congruence|].
            destruct (known n); [|reflexivity]. unfold set_entry. destruct (bseq m n) eqn:B; [apply bseq_eq in B; congruence|reflexivity].
        + intros m K. destruct (known n) eqn:KN; [|reflexivity]. unfold set_entry.
          destruct (bseq m n) eqn:B; [apply bseq_eq in B; subst; apply known_In in KN; contradiction|reflexivity].
      - exists st. split; [apply line_silent; auto|]. split; [auto|]. split; [|auto]. intros n _. right. auto. }
    destruct H as (st1 & E & F1 & S1 & U1).
    destruct (IH P2) with (st := st1) as (st2 & E2 & F2 & S2 & U2); auto.
    { intros O l' v I. apply OWN; auto. now right. }
    exists st2. cbn [run]. rewrite E. split; [exact E2|]. split; [auto|]. split.
    + intros n K. eapply settles_cons; eauto.
    + intros n K. rewrite U2, U1; auto.
Qed.

Lemma parse_plain own lines cf : Forall line_ok lines -> Forall plain lines ->
  (own = true -> forall l v, In l lines -> ~ gives l ($ "CONFIG_FILE") v) ->
  exists cf', parse_config_file own (file lines) cf = Ok cf' /\
    (forall n, In n config_map -> settles lines n (cf n) (cf' n)) /\ (forall n, ~ In n config_map -> cf' n = cf n).
Proof.
  intros OK P OWN. rewrite parse_run by auto.
  destruct (plain_run own lines OK P OWN (mkCs cf [] [] false) eq_refl) as (st & E & _ & S1 & U).
  rewrite E. exists (cs_config st). auto.
Qed.

(** ** References *)
Lemma name_char_capital c : name_char c = true <-> capital c.
Proof.
  unfold name_char, capital. rewrite orb_true_iff, andb_true_iff, !Z.leb_le.
  destruct (beq_spec c "_"%byte); intuition congruence.
Qed.

Lemma scan_variable_spec m r a b : m <> [] -> Forall capital m -> r <> [] -> ~ capital (hd x00 r) -> Forall (fun c => ~ blank c) r ->
  scan_variable (m ++ r) a b = (2, m, r).
Proof.
  intros NM FM NR HR FR. unfold scan_variable. destruct (m ++ r) as [|c s] eqn:E; [destruct m; [congruence|discriminate]|].
  rewrite <- E. rewrite span_app.
  2: { eapply Forall_impl; [|exact FM]. intros d. apply name_char_capital. }
  2: { right. destruct (name_char (hd x00 r)) eqn:X; [|reflexivity]. apply name_char_capital in X. contradiction. }
  destruct m as [|c0 m]; [congruence|].
  assert (HB : ~ blank (hd x00 r)) by (destruct r; [congruence|inversion FR; auto]).
  assert (SK : skip_space r = r) by (apply (skip_space_spec [] r); auto).
  rewrite SK.
  assert (SP : span (fun c => negb (isspace c)) (r ++ []) = (r, [])).
  { apply span_app; [|auto]. eapply Forall_impl; [|exact FR]. intros d. apply nonspace_blank. }
  rewrite app_nil_r in SP. rewrite SP. destruct r; [congruence|reflexivity].
Qed.

Lemma refers_len v m r : refers v m r -> 2 <= zlen v.
Proof.
  intros (-> & NM & _ & NR & _). destruct m; [congruence|]. unfold zlen. cbn [length app]. lia.
Qed.

Lemma ztake_ztake_app k (x r : bytes) : 0 <= k -> ztake k (ztake k x ++ r) = ztake k (x ++ r).
Proof.
  intros K. unfold ztake. rewrite !firstn_app, firstn_firstn, Nat.min_id, firstn_length.
  f_equal. destruct (Nat.le_ge_cases (Z.to_nat k) (length x)) as [H|H].
  - rewrite Nat.min_l by lia. replace (Z.to_nat k - Z.to_nat k)%nat with 0%nat by lia. replace (Z.to_nat k - length x)%nat with 0%nat by lia. reflexivity.
  - rewrite Nat.min_r by lia. reflexivity.
Qed.

Lemma parse_snoc own pre l cf cf0 : Forall line_ok pre -> line_ok l -> parse_config_file own (file pre) cf = Ok cf0 ->
  exists st, cs_config st = cf0 /\ (own = false -> cs_freed st = false) /\
    parse_config_file own (file (pre ++ [l])) cf = match config_line own l st with Fault => Fault | Ok st' => Ok (cs_config st') end.
Proof.
  intros F L. rewrite !parse_run by (try apply Forall_app; auto). rewrite run_app.
  destruct (run own pre (mkCs cf [] [] false)) as [st|] eqn:R; [|discriminate]. intros E; inversion E; subst.
  exists st. split; [reflexivity|]. split.
  - intros ->. assert (G : forall ls s s', run false ls s = Ok s' -> cs_freed s = false -> cs_freed s' = false).
    { induction ls as [|x ls IH]; intros s s'; cbn [run]; [congruence|].
      destruct (config_line false x s) as [s1|] eqn:C; [|discriminate]. intros R1 F1. apply (IH _ _ R1). clear R1 IH R E.
      unfold config_line in C. rewrite F1 in C. destruct (is_empty_line _); [congruence|].
      destruct (scan_line (cstr x)) as [[n v]|]; [|congruence]. cbv zeta in C.
      destruct (known n); [|congruence]. destruct (chop_whitespace v) as [|c t]; [inversion C; reflexivity|].
      destruct (beq c "$"%byte); [|inversion C; reflexivity].
      destruct (scan_variable t _ _) as [[z n'] w]. destruct (z =? 0); [inversion C; reflexivity|].
      destruct (if known n' then _ else _); inversion C; reflexivity. }
    eapply G; [exact R|reflexivity].
  - cbn [run]. destruct (config_line own l st); reflexivity.
Qed.

Lemma parse_reference own pre l cf cf0 n v m r x : Forall line_ok pre -> line_ok l ->
  parse_config_file own (file pre) cf = Ok cf0 -> gives l n v -> refers v m r ->
  In n config_map -> In m config_map -> cf0 m = Some x ->
  exists cf', parse_config_file own (file (pre ++ [l])) cf = Ok cf' /\
    cf' n = Some (ztake 1023 (x ++ r)) /\ forall k, k <> n -> cf' k = cf0 k.
Proof.
  intros F L P (t & W) R KN KM X. destruct (parse_snoc _ _ _ _ _ F L P) as (st & <- & _ & ->).
  pose proof (refers_len _ _ _ R) as RL.
  destruct R as (-> & NM & FM & NR & HR & FR).
  rewrite (written_line own _ _ _ _ st L W). rewrite (chop_written _ _ _ _ W) by auto. cbv zeta.
  rewrite (proj2 (known_In n) KN). rewrite (beq_refl "$"%byte). rewrite scan_variable_spec by auto.
  change (2 =? 0) with false. cbv iota. rewrite (proj2 (known_In m) KM), X.
  eexists. split; [reflexivity|]. cbn [cs_config]. rewrite ztake_ztake_app by (vm_compute; discriminate).
  unfold set_entry. split; [now rewrite bseq_refl|]. intros k NE. destruct (bseq k n) eqn:B; [apply bseq_eq in B; congruence|reflexivity].
Qed.

Lemma parse_reference_unset pre l cf cf0 n v m r : Forall line_ok pre -> line_ok l ->
  parse_config_file false (file pre) cf = Ok cf0 -> gives l n v -> refers v m r ->
  ~ In m config_map \/ cf0 m = None ->
  exists cf', parse_config_file false (file (pre ++ [l])) cf = Ok cf' /\ forall k, cf' k = cf0 k.
Proof.
  intros F L P (t & W) R X. destruct (parse_snoc _ _ _ _ _ F L P) as (st & <- & FR0 & ->).
  specialize (FR0 eq_refl).
  pose proof (refers_len _ _ _ R) as RL.
  destruct R as (-> & NM & FM & NR & HR & FR).
  rewrite (written_line false _ _ _ _ st L W). rewrite (chop_written _ _ _ _ W) by auto. cbv zeta. rewrite FR0.
  destruct (known n); [|eauto].
  rewrite (beq_refl "$"%byte). rewrite scan_variable_spec by auto.
  change (2 =? 0) with false. cbv iota.
  assert (Y : (if known m then cs_config st m else None) = None).
  { destruct X as [X|X]; [|rewrite X; destruct (known m); reflexivity].
    destruct (known m) eqn:K; [apply known_In in K; contradiction|reflexivity]. }
  rewrite Y. eexists; split; [reflexivity|]. reflexivity.
Qed.
