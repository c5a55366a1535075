(** Property theorems: the back end for the packet filter pf. *)
From Verif Require Import Bytes M_util M_message M_codec M_access M_cycle M_incoming M_packet M_fw M_extcmd
  S_text S_access S_incoming S_fw S_extcmd P_bytes P_util P_util2 P_access P_fw P_fw2 P_fw3 P_fw5 P_fw6 P_fw7 P_fw8 P_fw9 P_fwinit
  P_incoming3 P_incoming5 P_extcmd T_fw M_pf S_pf P_pf P_pf2 P_pf3.
From Coq Require Import Init.Byte List ZArith Bool Lia.
Import ListNotations.
Open Scope Z_scope.

(** ** C88 The packet filter pf *)
(** *** Requests *)
(** A request for access adds its rules, one for each protocol and port, behind those in the
    anchor, and changes nothing else: pfctl is assumed to work ([pf_ok]), and the rules together
    to fit the buffer they are read into.  Partial: see the refutations below. *)
Theorem C88_open_partial : forall K cf d now dst e pl xs k ac, pf_ok K -> conf_fits cf ->
  access_request cf d now dst e pl -> Forall2 (grants K (d_use d) dst e) pl xs ->
  Forall (held K) (ac (p_anchor cf)) -> zlen (lines (ac (p_anchor cf) ++ xs)) <= 3956 ->
  exists k' ac', process_spa_request machine (run_pfctl K) (feed_pfctl K) cf d now k (ac, []) = Ok (0, k', (ac', [])) /\
    ac' (p_anchor cf) = ac (p_anchor cf) ++ xs /\ elsewhere (p_anchor cf) ac ac'.
Proof.
  intros K cf d now dst e pl xs k ac KO CF (TY & RQ & SRC & DST & EE & TP & TEN) G H L. unfold process_spa_request.
  assert (B : (d_type d =? FKO_ACCESS_MSG) || (d_type d =? FKO_CLIENT_TIMEOUT_ACCESS_MSG) = true).
  { apply orb_true_iff. destruct TY as [->| ->]; [left|right]; reflexivity. }
  rewrite B, (entries_requested _ _ RQ). destruct (entries_ok _ _ RQ) as (_ & PP). rewrite u32_small by (destruct TEN; lia). rewrite <- EE.
  assert (DE : (if p_use_dst cf then d_pkt_dst d else PF_ANY_IP) = dst) by (destruct (p_use_dst cf); [destruct DST as (-> & _)|subst dst]; reflexivity).
  rewrite DE.
  destruct (add_all K cf CF KO (d_use d) dst e now SRC) with (pl := pl) (xs := xs) (k := k) (ac := ac) (rs := ac (p_anchor cf))
    as (k1 & ac1 & E1 & EA1 & EL1 & _); auto.
  { destruct (p_use_dst cf); [right; apply DST|left; exact DST]. }
  exists k1, ac1. repeat split; assumption.
Qed.
Print Assumptions C88_open_partial.

(** Such rules exist for each request *)
Theorem C88_rules_exist : forall K cf d now dst e pl, pf_ok K -> access_request cf d now dst e pl ->
  exists xs, Forall2 (grants K (d_use d) dst e) pl xs /\ Forall (fun x => own x /\ until x e) xs.
Proof.
  intros K cf d now dst e pl (_ & _ & AC) (TY & RQ & SRC & DST & EE & TP & TEN). destruct (entries_ok _ _ RQ) as (_ & PP). clear RQ.
  assert (DA : dst = $ "any" \/ address_text dst) by (destruct (p_use_dst cf); [right; apply DST|left; exact DST]).
  induction PP as [|(proto, port) pl (P & Q) PP IH]; [exists []; split; constructor|]. cbn [fst snd] in *. destruct IH as (xs & F & G).
  assert (AS : asks (d_use d) dst proto port e ($ "pass in quick proto " ++ dec proto ++ $ " from " ++ d_use d ++ $ " to " ++ dst ++ $ " port " ++ dec port ++ $ " keep state label " ++ mark ++ dec e)).
  { exists (dec proto), (dec port), (dec e). split; [apply dec_num; lia|]. split; [apply dec_num; lia|]. split; [apply dec_num; destruct TEN; lia|reflexivity]. }
  destruct (AC _ _ _ _ _ _ SRC DA P Q TEN AS) as (x & S1 & OW & U).
  exists (x :: xs). split; constructor; auto. exists ($ "pass in quick proto " ++ dec proto ++ $ " from " ++ d_use d ++ $ " to " ++ dst ++ $ " port " ++ dec port ++ $ " keep state label " ++ mark ++ dec e). split; assumption.
Qed.
Print Assumptions C88_rules_exist.

(** Other messages (commands, NAT) run no program and are answered by -1, on any machine *)
Theorem C88_other : forall W exec feed cf d now k (w : W), d_type d <> 1 -> d_type d <> 3 ->
  process_spa_request W exec feed cf d now k w = Ok (-1, k, w).
Proof.
  intros W exec feed cf d now k w N1 N3. unfold process_spa_request.
  assert (B : (d_type d =? FKO_ACCESS_MSG) || (d_type d =? FKO_CLIENT_TIMEOUT_ACCESS_MSG) = false) by (apply orb_false_iff; split; apply Z.eqb_neq; assumption).
  now rewrite B.
Qed.
Print Assumptions C88_other.

(** Whatever fails, a request opens nothing that was not open before and is not asked for, and
    touches no other anchor *)
Theorem C88_no_more_partial : forall K cf d now dst e pl xs k ac fs, pf_ok K -> conf_fits cf ->
  access_request cf d now dst e pl -> Forall2 (grants K (d_use d) dst e) pl xs ->
  Forall (held K) (ac (p_anchor cf)) -> zlen (lines (ac (p_anchor cf) ++ xs)) <= 3956 ->
  exists r k' ac' fs', process_spa_request machine (run_pfctl K) (feed_pfctl K) cf d now k (ac, fs) = Ok (r, k', (ac', fs')) /\
    only_drops (fun _ => True) (ac (p_anchor cf) ++ xs) (ac' (p_anchor cf)) /\ elsewhere (p_anchor cf) ac ac'.
Proof.
  intros K cf d now dst e pl xs k ac fs KO CF (TY & RQ & SRC & DST & EE & TP & TEN) G H L. unfold process_spa_request.
  assert (B : (d_type d =? FKO_ACCESS_MSG) || (d_type d =? FKO_CLIENT_TIMEOUT_ACCESS_MSG) = true).
  { apply orb_true_iff. destruct TY as [->| ->]; [left|right]; reflexivity. }
  rewrite B, (entries_requested _ _ RQ). destruct (entries_ok _ _ RQ) as (_ & PP). rewrite u32_small by (destruct TEN; lia). rewrite <- EE.
  assert (DE : (if p_use_dst cf then d_pkt_dst d else PF_ANY_IP) = dst) by (destruct (p_use_dst cf); [destruct DST as (-> & _)|subst dst]; reflexivity).
  rewrite DE.
  destruct (add_safe K cf CF KO (d_use d) dst e now SRC) with (pl := pl) (xs := xs) (k := k) (ac := ac) (fs := fs)
    as (r & k1 & ac1 & fs1 & E1 & EL1 & DR); auto.
  { destruct (p_use_dst cf); [right; apply DST|left; exact DST]. }
  exists r, k1, ac1, fs1. repeat split; assumption.
Qed.
Print Assumptions C88_no_more_partial.

(** *** Checks *)
(** A check removes no rule before its time, whatever fails; if nothing fails and the counters
    agree with the anchor, it removes exactly the rules whose time has come, and the counters
    agree again *)
Theorem C88_close_partial : forall K cf now k ac fs, pf_ok K -> conf_fits cf ->
  Forall (held K) (ac (p_anchor cf)) -> zlen (lines (ac (p_anchor cf))) <= 4095 ->
  exists k' ac' fs', check_firewall_rules machine (run_pfctl K) (feed_pfctl K) cf now k (ac, fs) = Ok (k', (ac', fs')) /\
    elsewhere (p_anchor cf) ac ac' /\ only_drops (lapsed now) (ac (p_anchor cf)) (ac' (p_anchor cf)) /\
    (fs = [] -> agree (ac (p_anchor cf)) k -> without (lapsed now) (ac (p_anchor cf)) (ac' (p_anchor cf)) /\ agree (ac' (p_anchor cf)) k').
Proof.
  intros K cf now k ac fs KO CF H L. destruct (check_pass K cf CF KO now k ac fs H L) as (k' & ac' & fs' & E & EL & D & _ & A).
  exists k', ac', fs'. repeat split; try assumption; now apply A.
Qed.
Print Assumptions C88_close_partial.

(** *** Histories *)
(** From an empty anchor and fresh counters on, the anchor always holds the rules it should
    hold by [granted], and the other anchors are as before *)
Theorem C88_history_partial : forall K cf now h rs' ac, pf_ok K -> conf_fits cf -> 0 < now -> ac (p_anchor cf) = [] ->
  granted K cf now [] h rs' ->
  exists k' ac', serve K cf h (mkCnt 0 0, (ac, [])) = Ok (k', (ac', [])) /\ ac' (p_anchor cf) = rs' /\ elsewhere (p_anchor cf) ac ac'.
Proof.
  intros K cf now h rs' ac KO CF NP EA G.
  destruct (serve_granted K cf CF KO now [] h rs' G (mkCnt 0 0) ac NP EA) as (k' & ac' & E & E2 & EL & _); auto.
  - split; [reflexivity|]. left. split; reflexivity.
  - discriminate.
  - exists k', ac'. repeat split; assumption.
Qed.
Print Assumptions C88_history_partial.

(** In particular, right after a check nothing is open whose time has come *)
Lemma granted_last K cf t : forall now rs h rs', granted K cf now rs (h ++ [(t, Check)]) rs' -> Forall (fun x => ~ lapsed t x) rs'.
Proof.
  intros now rs h. revert now rs. induction h as [|(u, o) h IH]; intros now rs rs' G; cbn [app] in G.
  - inversion G as [|? ? ? rs1 ? ? T W G1| |]; subst. inversion G1; subst. clear G G1 T.
    induction W as [|x l l' P W IH|x l l' P W IH]; [constructor|exact IH|constructor; assumption].
  - inversion G as [|? ? ? rs1 ? ? T W G1|? ? ? ? ? ? T N1 N3 G1|? ? ? ? ? ? ? ? ? ? T AR F D R G1]; subst; eapply IH; eassumption.
Qed.
Theorem C88_closed_partial : forall K cf now h t rs' ac, pf_ok K -> conf_fits cf -> 0 < now -> ac (p_anchor cf) = [] ->
  granted K cf now [] (h ++ [(t, Check)]) rs' ->
  exists k' ac', serve K cf (h ++ [(t, Check)]) (mkCnt 0 0, (ac, [])) = Ok (k', (ac', [])) /\
    forall x e, In x (ac' (p_anchor cf)) -> until x e -> t < e.
Proof.
  intros K cf now h t rs' ac KO CF NP EA G. destruct (C88_history_partial K cf now _ rs' ac KO CF NP EA G) as (k' & ac' & E & E2 & _).
  exists k', ac'. split; [exact E|]. intros x e I U. rewrite E2 in I. pose proof (granted_last _ _ _ _ _ _ _ G) as F. rewrite Forall_forall in F.
  destruct (Z.ltb_spec t e) as [Q|Q]; [exact Q|]. destruct (F x I). exists e. split; assumption.
Qed.
Print Assumptions C88_closed_partial.

(** *** Start and end *)
(** The daemon starts if a line of the listing of the anchors ends with the name of its anchor;
    then the anchor is empty, and so are the counters.  Partial: [C88_anchor_refuted]. *)
Theorem C88_start_partial : forall K cf ac ls, conf_fits cf -> zlen (p_anchor cf) <= 63 -> text_lines (linked K) ls -> Forall plain_line ls ->
  exists b ac', fw_initialize machine (run_pfctl K) cf (ac, []) = Ok (b, (ac', [])) /\ elsewhere (p_anchor cf) ac ac' /\
    (b = true <-> exists l a, In l ls /\ l = a ++ p_anchor cf) /\ ac' (p_anchor cf) = (if b then [] else ac (p_anchor cf)).
Proof. intros K cf ac ls CF LA TL PL. exact (initialize K cf CF ac ls TL PL LA). Qed.
Print Assumptions C88_start_partial.

(** At its end the daemon empties its anchor and no other *)
Theorem C88_end : forall K cf ac, conf_fits cf ->
  exists ac', fw_cleanup machine (run_pfctl K) cf (ac, []) = Ok (ac', []) /\ ac' (p_anchor cf) = [] /\ elsewhere (p_anchor cf) ac ac'.
Proof.
  intros K cf ac CF. destruct (flush_run K cf CF ac []) as (ac1 & FR & _ & FF). specialize (FF eq_refl). subst ac1.
  exists (put_anchor ac (p_anchor cf) []). split; [exact FR|]. split; [apply put_same|apply put_else].
Qed.
Print Assumptions C88_end.

(** *** A pfctl for examples *)
(** It puts the label into quotes, and shows text with quotes as it is *)
Definition shown0 (y : bytes) : option bytes :=
  if memb """"%byte y then Some y
  else match index_of "_"%byte y with
       | Some k => Some (firstn k y ++ [""""%byte] ++ skipn k y ++ [""""%byte])
       | None => None
       end.
Definition pf0 : pf := mkPfctl shown0 [] ($ "com.apple" ++ [x0a] ++ $ "fwknop" ++ [x0a]).
Definition cf0 : pfconf := mkPf ($ "/sbin/pfctl") ($ "fwknop") false.

Definition plain_char (c : byte) : bool := negb (memb c ["_"%byte; """"%byte; x0a; x00]).
Lemma plain_digit c : digit c -> plain_char c = true.
Proof.
  intro D. unfold plain_char. apply negb_true_iff. destruct (memb c _) eqn:E; [|reflexivity]. apply memb_In in E. exfalso. cbn [In] in E.
  unfold digit in D. destruct E as [<-|[<-|[<-|[<-|[]]]]]; vm_compute in D; destruct D as [D1 D2]; (apply D1; reflexivity) || (apply D2; reflexivity).
Qed.
Definition plain (s : bytes) : Prop := Forall (fun c => plain_char c = true) s.
Lemma plain_lit s : forallb plain_char s = true -> plain s.
Proof. intro F. apply Forall_forall. rewrite forallb_forall in F. exact F. Qed.
Lemma plain_digits s : all_digits s -> plain s.
Proof. intro F. eapply Forall_impl; [|exact F]. exact plain_digit. Qed.
Lemma plain_addr s : address_text s -> plain s.
Proof. intros (_ & a & b & c & d & T). eapply Forall_impl; [|exact (address_chars _ _ _ _ _ T)]. intros x [D| ->]; [now apply plain_digit|reflexivity]. Qed.
Lemma plain_not c s : plain s -> plain_char c = false -> ~ In c s.
Proof. intros F N I. unfold plain in F. rewrite Forall_forall in F. rewrite (F _ I) in N. discriminate. Qed.
Lemma plain_app a b : plain a -> plain b -> plain (a ++ b).
Proof. intros. apply Forall_app. split; assumption. Qed.

Lemma first_same (c : byte) a a' b b' : ~ In c a -> ~ In c a' -> a ++ c :: b = a' ++ c :: b' -> a = a'.
Proof.
  revert a'. induction a as [|x a IH]; intros [|y a'] N N' E; cbn [app] in E; [reflexivity| | |].
  - exfalso. apply N'. left. injection E as -> _. reflexivity.
  - exfalso. apply N. left. injection E as -> _. reflexivity.
  - injection E as -> E. f_equal. apply IH; [intro I; apply N; now right|intro I; apply N'; now right|exact E].
Qed.
Lemma count_none s : plain s -> count_occ byte_eq_dec s "_"%byte = 0%nat.
Proof. intro P. apply count_occ_not_In. apply plain_not; [exact P|reflexivity]. Qed.
(** Only one mark in a line that has no other underscore *)
Lemma one_mark pre post a b : plain pre -> count_occ byte_eq_dec post "_"%byte = 0%nat -> pre ++ [""""%byte] ++ mark ++ post = a ++ mark ++ b -> a = pre ++ [""""%byte].
Proof.
  intros P Q E.
  assert (C : count_occ byte_eq_dec (pre ++ [""""%byte] ++ mark ++ post) "_"%byte = count_occ byte_eq_dec (a ++ mark ++ b) "_"%byte) by now rewrite E.
  rewrite !count_occ_app, (count_none _ P), Q in C. change (count_occ byte_eq_dec mark "_"%byte) with 2%nat in C. change (count_occ byte_eq_dec [""""%byte] "_"%byte) with 0%nat in C.
  assert (A : count_occ byte_eq_dec a "_"%byte = 0%nat) by lia. apply count_occ_not_In in A.
  rewrite app_assoc in E. change mark with ("_"%byte :: skipn 1 mark) in E. cbn [app] in E. symmetry. refine (first_same _ _ _ _ _ _ A E).
  intro I. apply in_app_or in I. destruct I as [I|[I|[]]]; [exact (plain_not "_"%byte _ P eq_refl I)|discriminate].
Qed.
Lemma pf0_ok : pf_ok pf0.
Proof.
  split; [reflexivity|]. split.
  - intros y x E. cbn [shown pf0] in *. unfold shown0 in E. unfold shown0.
    destruct (memb """"%byte y) eqn:M; [injection E as <-; now rewrite M|]. destruct (index_of "_"%byte y) as [k|]; [|discriminate]. injection E as <-.
    match goal with |- (if ?m then _ else _) = _ => assert (m = true) as -> end; [|reflexivity]. apply memb_In. apply in_or_app. right. now left.
  - intros src dst proto port e y SRC DST P Q TEN (p & q & n & NP & NQ & NN & E). cbn [shown pf0].
    set (pre := $ "pass in quick proto " ++ p ++ $ " from " ++ src ++ $ " to " ++ dst ++ $ " port " ++ q ++ $ " keep state label ") in *.
    assert (Y : y = pre ++ mark ++ n) by (rewrite E; unfold pre; rewrite <- !app_assoc; reflexivity).
    assert (PD : plain dst) by (destruct DST as [->|D]; [now apply plain_lit|now apply plain_addr]).
    assert (PP : plain pre).
    { unfold pre. repeat apply plain_app; try (apply plain_lit; reflexivity); [apply plain_digits, NP|now apply plain_addr|exact PD|apply plain_digits, NQ]. }
    assert (PN : plain n) by apply plain_digits, NN.
    assert (M : memb """"%byte y = false).
    { destruct (memb """"%byte y) eqn:M; [|reflexivity]. apply memb_In in M. exfalso. rewrite Y in M. apply in_app_or in M. destruct M as [M|M]; [exact (plain_not """"%byte _ PP eq_refl M)|].
      apply in_app_or in M. destruct M as [M|M]; [|exact (plain_not """"%byte _ PN eq_refl M)]. vm_compute in M. intuition discriminate. }
    assert (I : index_of "_"%byte y = Some (length pre)).
    { rewrite Y. change mark with ("_"%byte :: skipn 1 mark). cbn [app]. apply index_of_app. apply plain_not; [exact PP|reflexivity]. }
    assert (SH : shown0 y = Some (pre ++ [""""%byte] ++ mark ++ n ++ [""""%byte])).
    { unfold shown0. rewrite M, I, Y, firstn_app, Nat.sub_diag, firstn_all, firstn_O, app_nil_r, skipn_app, Nat.sub_diag, skipn_all, skipn_O. cbn [app]. now rewrite <- app_assoc. }
    assert (LN : zlen n = 10).
    { assert (n = dec e) as -> by (eapply writes_unique; [exact NN|apply dec_num; destruct TEN; lia]). pose proof (dec_len10 e ltac:(destruct TEN; lia)).
      pose proof (dec_num e ltac:(destruct TEN; lia)) as (_ & AD & DE & _). pose proof (decimal_bound _ AD) as B. destruct TEN as [T1 _]. rewrite DE in B.
      destruct (Z.leb_spec (zlen (dec e)) 9) as [S9|S9]; [|lia]. exfalso. assert (10 ^ zlen (dec e) <= 10 ^ 9) by (apply Z.pow_le_mono_r; lia). lia. }
    assert (U : until (pre ++ [""""%byte] ++ mark ++ n ++ [""""%byte]) e).
    { exists (pre ++ [""""%byte]), n, []. split; [rewrite <- !app_assoc; reflexivity|]. split; [|split; assumption].
      intros a b EE. eapply one_mark; [exact PP| |exact EE]. rewrite count_occ_app, (count_none _ PN). reflexivity. }
    exists (pre ++ [""""%byte] ++ mark ++ n ++ [""""%byte]). split; [exact SH|]. split; [|exact U]. split; [exists e; exact U|].
    split; [eexists; unfold pre; rewrite <- !app_assoc; change ($ "pass in quick proto ") with ($ "pass" ++ $ " in quick proto "); rewrite <- !app_assoc; reflexivity|].
    assert (NI : forall c, plain_char c = false -> ~ In c ([""""%byte] ++ mark) -> ~ In c (pre ++ [""""%byte] ++ mark ++ n ++ [""""%byte])).
    { intros c F NC J. apply in_app_or in J. destruct J as [J|J]; [exact (plain_not _ _ PP F J)|]. rewrite app_assoc in J. apply in_app_or in J. destruct J as [J|J]; [exact (NC J)|].
      apply in_app_or in J. destruct J as [J|[J|[]]]; [exact (plain_not _ _ PN F J)|]. apply NC. left. exact J. }
    split; apply NI; try reflexivity; intro J; vm_compute in J; intuition discriminate.
Qed.
Lemma cf0_fits : conf_fits cf0.
Proof. repeat split; try discriminate; repeat constructor; try discriminate; try (rewrite <- isspace_blank; discriminate). Qed.

(** The rule for [src] to TCP port 22 until [e] *)
Definition rule0 (src : bytes) (e : Z) : bytes :=
  $ "pass in quick proto 6 from " ++ src ++ $ " to any port 22 keep state label " ++ [""""%byte] ++ $ "_exp_" ++ dec e ++ [""""%byte].
Definition T0 : Z := 1700000000.
Definition in_anchor (r : outcome state) : option (counters * list bytes) :=
  match r with Ok (k, (ac, _)) => Some (k, ac ($ "fwknop")) | Fault => None end.
Definition fresh : anchors := fun _ => [].
Definition A1 : bytes := $ "10.0.0.1".
Definition A2 : bytes := $ "10.0.0.2".
Definition ssh (a : bytes) (timeout : Z) : spa_data := req a ($ "tcp/22") timeout.

Lemma addr1 : address_text A1.
Proof. apply address_iff; [reflexivity|vm_compute; discriminate]. Qed.
Lemma addr2 : address_text A2.
Proof. apply address_iff; [reflexivity|vm_compute; discriminate]. Qed.
Lemma rule0_ok a e : a = A1 \/ a = A2 -> ten_digits e -> grants pf0 a ($ "any") e (6, 22) (rule0 a e) /\ held pf0 (rule0 a e) /\ until (rule0 a e) e.
Proof.
  intros AA TEN. assert (AT : address_text a) by (destruct AA as [->| ->]; [exact addr1|exact addr2]).
  set (y := $ "pass in quick proto " ++ $ "6" ++ $ " from " ++ a ++ $ " to " ++ $ "any" ++ $ " port " ++ $ "22" ++ $ " keep state label " ++ mark ++ dec e).
  assert (AS : asks a ($ "any") 6 22 e y).
  { exists ($ "6"), ($ "22"), (dec e). split; [repeat split; try discriminate; repeat constructor; vm_compute; discriminate|].
    split; [repeat split; try discriminate; repeat constructor; vm_compute; discriminate|]. split; [apply dec_num; destruct TEN; lia|reflexivity]. }
  destruct pf0_ok as (_ & RB & AC). destruct (AC a ($ "any") 6 22 e y AT (or_introl eq_refl) ltac:(lia) ltac:(lia) TEN AS) as (x & SH & OW & U).
  assert (X : x = rule0 a e).
  { assert (Q : shown0 y = Some (rule0 a e)); [|cbn [shown pf0] in SH; congruence].
    assert (PA : plain a) by now apply plain_addr. assert (PN : plain (dec e)) by (apply plain_digits; apply dec_num; destruct TEN; lia).
    set (pre := $ "pass in quick proto 6 from " ++ a ++ $ " to any port 22 keep state label ").
    assert (PP : plain pre) by (unfold pre; repeat apply plain_app; try (apply plain_lit; reflexivity); exact PA).
    assert (Y : y = pre ++ mark ++ dec e).
    { unfold y, pre. rewrite <- !app_assoc. change ($ "pass in quick proto 6 from ") with ($ "pass in quick proto " ++ $ "6" ++ $ " from ").
      change ($ " to any port 22 keep state label ") with ($ " to " ++ $ "any" ++ $ " port " ++ $ "22" ++ $ " keep state label "). now rewrite <- !app_assoc. }
    assert (M : memb """"%byte y = false).
    { destruct (memb """"%byte y) eqn:M; [|reflexivity]. apply memb_In in M. exfalso. rewrite Y in M. apply in_app_or in M. destruct M as [M|M]; [exact (plain_not """"%byte _ PP eq_refl M)|].
      apply in_app_or in M. destruct M as [M|M]; [|exact (plain_not """"%byte _ PN eq_refl M)]. vm_compute in M. intuition discriminate. }
    assert (I : index_of "_"%byte y = Some (length pre)).
    { rewrite Y. change mark with ("_"%byte :: skipn 1 mark). cbn [app]. apply index_of_app. apply plain_not; [exact PP|reflexivity]. }
    unfold shown0. rewrite M, I, Y, firstn_app, Nat.sub_diag, firstn_all, firstn_O, app_nil_r, skipn_app, Nat.sub_diag, skipn_all, skipn_O. cbn [app].
    unfold pre, rule0. rewrite <- !app_assoc. reflexivity. }
  subst x. split; [exists y; split; assumption|]. split; [|exact U]. split; [exact OW|exact (RB _ _ SH)].
Qed.
Lemma ssh_request a t timeout : a = A1 \/ a = A2 -> 0 <= timeout -> ten_digits (t + timeout) -> access_request cf0 (ssh a timeout) t ($ "any") (t + timeout) [(6, 22)].
Proof.
  intros AA P TEN. split; [left; reflexivity|]. split.
  - exists [$ "tcp/22"]. split.
    + exists [$ "tcp/22"]. split; [reflexivity|]. split; [discriminate|]. split; [constructor; [apply no_byte; reflexivity|constructor]|].
      constructor; [|constructor]. exists []. split; [reflexivity|]. split; [constructor|]. intro X. rewrite <- isspace_blank in X. discriminate.
    + constructor; [|constructor]. split; [apply entry_short; [discriminate|reflexivity]|discriminate].
  - split; [destruct AA as [->| ->]; [exact addr1|exact addr2]|]. repeat split; try assumption; apply TEN.
Qed.

Example C88_open_ex : access_request cf0 (ssh A2 30) T0 ($ "any") (T0 + 30) [(6, 22)] /\
  Forall2 (grants pf0 A2 ($ "any") (T0 + 30)) [(6, 22)] [rule0 A2 (T0 + 30)] /\ Forall (held pf0) [rule0 A1 (T0 + 20)] /\
  zlen (lines ([rule0 A1 (T0 + 20)] ++ [rule0 A2 (T0 + 30)])) <= 3956 /\
  in_anchor (serve pf0 cf0 [(T0, Ask (ssh A2 30))] (mkCnt 1 (T0 + 20), (put_anchor fresh ($ "fwknop") [rule0 A1 (T0 + 20)], []))) =
    Some (mkCnt 2 (T0 + 20), [rule0 A1 (T0 + 20); rule0 A2 (T0 + 30)]).
Proof.
  assert (T1 : ten_digits (T0 + 30)) by (vm_compute; split; [discriminate|reflexivity]). assert (T2 : ten_digits (T0 + 20)) by (vm_compute; split; [discriminate|reflexivity]).
  split; [apply ssh_request; auto; lia|]. split; [constructor; [apply rule0_ok; auto|constructor]|]. split; [constructor; [apply rule0_ok; auto|constructor]|].
  split; [vm_compute; discriminate|vm_compute; reflexivity].
Qed.

(** Two requests, a check that removes the first rule, and one that removes the second *)
Definition story : list (Z * op) := [(T0, Ask (ssh A1 30)); (T0 + 5, Check); (T0 + 10, Ask (ssh A2 30)); (T0 + 30, Check)].
Example C88_history_ex : granted pf0 cf0 1 [] story [rule0 A2 (T0 + 40)] /\ granted pf0 cf0 1 [] (story ++ [(T0 + 40, Check)]) [] /\
  in_anchor (serve pf0 cf0 story (mkCnt 0 0, (fresh, []))) = Some (mkCnt 1 (T0 + 40), [rule0 A2 (T0 + 40)]) /\
  in_anchor (serve pf0 cf0 (story ++ [(T0 + 40, Check)]) (mkCnt 0 0, (fresh, []))) = Some (mkCnt 0 0, []).
Proof.
  assert (T1 : ten_digits (T0 + 30)) by (vm_compute; split; [discriminate|reflexivity]). assert (T2 : ten_digits (T0 + 40)) by (vm_compute; split; [discriminate|reflexivity]).
  assert (T3 : ten_digits (T0 + 10 + 30)) by (vm_compute; split; [discriminate|reflexivity]).
  assert (O1 : A1 = A1 \/ A1 = A2) by now left. assert (O2 : A2 = A1 \/ A2 = A2) by now right.
  destruct (rule0_ok A1 (T0 + 30) O1 T1) as (G1 & _ & U1). destruct (rule0_ok A2 (T0 + 40) O2 T2) as (G2 & _ & U2).
  assert (N1 : forall t, t < T0 + 30 -> ~ lapsed t (rule0 A1 (T0 + 30))) by (intros t L (e & U & LE); rewrite (until_fun _ _ _ U U1) in LE; lia).
  assert (N2 : forall t, t < T0 + 40 -> ~ lapsed t (rule0 A2 (T0 + 40))) by (intros t L (e & U & LE); rewrite (until_fun _ _ _ U U2) in LE; lia).
  assert (ST : forall h rs', granted pf0 cf0 (T0 + 30) [rule0 A2 (T0 + 40)] h rs' -> granted pf0 cf0 1 [] (story ++ h) rs').
  { intros h rs' G. unfold story. cbn [app].
    eapply granted_ask with (xs := [rule0 A1 (T0 + 30)]); [unfold T0; lia|apply (ssh_request A1 T0 30); auto; lia|constructor; [exact G1|constructor]|constructor|vm_compute; discriminate|]. cbn [app].
    eapply granted_check; [unfold T0; lia|apply without_keep; [apply N1; lia|apply without_nil]|].
    eapply granted_ask with (xs := [rule0 A2 (T0 + 40)]); [unfold T0; lia|apply (ssh_request A2 (T0 + 10) 30); auto; lia|constructor; [exact G2|constructor]| |vm_compute; discriminate|].
    { constructor; [|constructor]. intros e U. rewrite (until_fun _ _ _ U U1). unfold T0. lia. }
    cbn [app]. eapply granted_check; [unfold T0; lia| |exact G].
    apply without_drop; [exists (T0 + 30); split; [exact U1|lia]|]. apply without_keep; [apply N2; lia|apply without_nil]. }
  split; [rewrite <- (app_nil_r story); apply ST; constructor|]. split; [|split; vm_compute; reflexivity].
  apply ST. eapply granted_check; [unfold T0; lia| |constructor]. apply without_drop; [exists (T0 + 40); split; [exact U2|lia]|apply without_nil].
Qed.
Example C88_start_ex : text_lines (linked pf0) [$ "com.apple"; $ "fwknop"] /\ Forall plain_line [$ "com.apple"; $ "fwknop"] /\
  match fw_initialize machine (run_pfctl pf0) cf0 (put_anchor fresh ($ "fwknop") [rule0 A1 T0], []) with
  | Ok (b, (ac, _)) => b = true /\ ac ($ "fwknop") = []
  | Fault => False
  end.
Proof.
  split; [split; [reflexivity|repeat (apply Forall_cons; [apply no_byte; reflexivity|]); apply Forall_nil]|].
  split; [|vm_compute; split; reflexivity].
  repeat (apply Forall_cons; [split; [reflexivity|]; split; [apply no_byte; reflexivity|cbn; repeat split; discriminate]|]); apply Forall_nil.
Qed.

(** *** What does not hold *)
(** A rule whose time has come outlives the check when a request was served between that time
    and the check: the time of the next check that does something is then the end of the new
    rule.  Here a rule for 30 seconds is still there after 3000 seconds and a check. *)
Theorem C88_overdue_refuted : exists K cf h now t x, pf_ok K /\ conf_fits cf /\
  (forall u, In u (map fst h) -> now <= u <= t) /\
  match serve K cf (h ++ [(t, Check)]) (mkCnt 0 0, (fresh, [])) with
  | Ok (_, (ac, fs)) => fs = [] /\ In x (ac (p_anchor cf)) /\ until x (now + 30) /\ now + 3000 <= t
  | Fault => False
  end.
Proof.
  exists pf0, cf0, [(T0, Ask (ssh A1 30)); (T0 + 31, Ask (ssh A2 3600))], T0, (T0 + 3000), (rule0 A1 (T0 + 30)).
  split; [exact pf0_ok|]. split; [exact cf0_fits|]. split; [cbn [map fst In]; intros u [<-|[<-|[]]]; unfold T0; lia|].
  set (r := serve _ _ _ _). assert (E : in_anchor r = Some (mkCnt 2 (T0 + 3631), [rule0 A1 (T0 + 30); rule0 A2 (T0 + 3631)])) by (vm_compute; reflexivity).
  assert (F : match r with Ok (_, (_, fs)) => fs = [] | Fault => True end) by (vm_compute; reflexivity).
  destruct r as [(k & ac & fs)|]; [|discriminate E]. cbn [in_anchor] in E. split; [exact F|]. split.
  - injection E as _ E. change (p_anchor cf0) with ($ "fwknop"). rewrite E. left. reflexivity.
  - split; [|unfold T0; lia]. apply rule0_ok; [now left|vm_compute; split; [discriminate|reflexivity]].
Qed.
Print Assumptions C88_overdue_refuted.

(** When the writing of the remaining rules fails once, the count of the rules is wrong from
    then on, and a rule may stay for ever: after three checks, of which the first fails, and
    from then on at no time [t] does a check remove the second rule. *)
Theorem C88_failed_write_refuted : exists K cf h now x, pf_ok K /\ conf_fits cf /\
  match serve K cf h (mkCnt 0 0, (fresh, [Runs; Runs; Runs; Runs; Runs; NoStart])) with
  | Ok (k, (ac, fs)) => fs = [] /\ In x (ac (p_anchor cf)) /\ until x (now + 60) /\
      forall t, check_firewall_rules machine (run_pfctl K) (feed_pfctl K) cf t k (ac, fs) = Ok (k, (ac, fs))
  | Fault => False
  end.
Proof.
  exists pf0, cf0, [(T0, Ask (ssh A1 30)); (T0, Ask (ssh A2 60)); (T0 + 30, Check); (T0 + 31, Check)], T0, (rule0 A2 (T0 + 60)).
  split; [exact pf0_ok|]. split; [exact cf0_fits|].
  set (r := serve _ _ _ _). assert (E : in_anchor r = Some (mkCnt 0 0, [rule0 A2 (T0 + 60)])) by (vm_compute; reflexivity).
  assert (F : match r with Ok (_, (_, fs)) => fs = [] | Fault => True end) by (vm_compute; reflexivity).
  destruct r as [(k & ac & fs)|]; [|discriminate E]. cbn [in_anchor] in E. split; [exact F|]. injection E as -> E. split.
  - change (p_anchor cf0) with ($ "fwknop"). rewrite E. left. reflexivity.
  - split; [apply rule0_ok; [now right|vm_compute; split; [discriminate|reflexivity]]|]. intro t. reflexivity.
Qed.
Print Assumptions C88_failed_write_refuted.

(** A request is reported as served although pfctl has not accepted the rule: how pfctl ends is
    not looked at *)
Theorem C88_reported_refuted : exists K cf d now dst e pl, pf_ok K /\ conf_fits cf /\ access_request cf d now dst e pl /\
  process_spa_request machine (run_pfctl K) (feed_pfctl K) cf d now (mkCnt 0 0) (fresh, [Runs; Refuses]) = Ok (0, mkCnt 1 e, (fresh, [])).
Proof.
  exists pf0, cf0, (ssh A1 30), T0, ($ "any"), (T0 + 30), [(6, 22)]. split; [exact pf0_ok|]. split; [exact cf0_fits|].
  split; [apply ssh_request; [now left|lia|vm_compute; split; [discriminate|reflexivity]]|]. reflexivity.
Qed.
Print Assumptions C88_reported_refuted.

(** When the listing of the rules fails, the new rule replaces all those in the anchor: others
    lose their access *)
Theorem C88_listing_refuted : exists K cf d now dst e pl x, pf_ok K /\ conf_fits cf /\ access_request cf d now dst e pl /\
  held K x /\ ~ lapsed now x /\
  match process_spa_request machine (run_pfctl K) (feed_pfctl K) cf d now (mkCnt 1 (now + 50)) (put_anchor fresh (p_anchor cf) [x], [Refuses]) with
  | Ok (r, _, (ac, _)) => r = 0 /\ ~ In x (ac (p_anchor cf))
  | Fault => False
  end.
Proof.
  assert (TEN : ten_digits (T0 + 50)) by (vm_compute; split; [discriminate|reflexivity]).
  exists pf0, cf0, (ssh A1 30), T0, ($ "any"), (T0 + 30), [(6, 22)], (rule0 A2 (T0 + 50)). split; [exact pf0_ok|]. split; [exact cf0_fits|].
  split; [apply ssh_request; [now left|lia|vm_compute; split; [discriminate|reflexivity]]|].
  destruct (rule0_ok A2 (T0 + 50) (or_intror eq_refl) TEN) as (_ & H & U). split; [exact H|].
  split; [intros (e & U' & LE); rewrite (until_fun _ _ _ U' U) in LE; lia|].
  vm_compute. split; [reflexivity|]. intros [E|[]]; discriminate E.
Qed.
Print Assumptions C88_listing_refuted.

(** When pfctl writes a message to standard error with the listing (as it does without ALTQ in
    the kernel), that message is taken for rules: no request is ever served, but each is
    reported as served *)
Definition altq : bytes := $ "No ALTQ support in kernel" ++ [x0a].
Theorem C88_message_refuted : exists K cf d now dst e pl, noise K = altq /\ reads_back K /\ accepts K /\ conf_fits cf /\ access_request cf d now dst e pl /\
  process_spa_request machine (run_pfctl K) (feed_pfctl K) cf d now (mkCnt 0 0) (fresh, []) = Ok (0, mkCnt 1 e, (fresh, [])).
Proof.
  exists (mkPfctl shown0 altq []), cf0, (ssh A1 30), T0, ($ "any"), (T0 + 30), [(6, 22)]. destruct pf0_ok as (_ & RB & AC).
  split; [reflexivity|]. split; [exact RB|]. split; [exact AC|]. split; [exact cf0_fits|].
  split; [apply ssh_request; [now left|lia|vm_compute; split; [discriminate|reflexivity]]|]. reflexivity.
Qed.
Print Assumptions C88_message_refuted.

(** A request is reported as served although there is no room for its rule: with 47 rules in
    the anchor no further one is added *)
Theorem C88_room_refuted : exists K cf d now dst e pl ac, pf_ok K /\ conf_fits cf /\ access_request cf d now dst e pl /\
  Forall (held K) (ac (p_anchor cf)) /\ zlen (ac (p_anchor cf)) = 47 /\
  process_spa_request machine (run_pfctl K) (feed_pfctl K) cf d now (mkCnt 47 (now + 50)) (ac, []) = Ok (0, mkCnt 47 (now + 50), (ac, [])).
Proof.
  assert (TEN : ten_digits (T0 + 50)) by (vm_compute; split; [discriminate|reflexivity]).
  exists pf0, cf0, (ssh A1 30), T0, ($ "any"), (T0 + 30), [(6, 22)], (put_anchor fresh ($ "fwknop") (repeat (rule0 A2 (T0 + 50)) 47)).
  split; [exact pf0_ok|]. split; [exact cf0_fits|]. split; [apply ssh_request; [now left|lia|vm_compute; split; [discriminate|reflexivity]]|].
  split; [change (Forall (held pf0) (repeat (rule0 A2 (T0 + 50)) 47)); apply Forall_forall; intros x I; apply repeat_spec in I; subst x; apply rule0_ok; [now right|exact TEN]|].
  split; [reflexivity|]. vm_compute. reflexivity.
Qed.
Print Assumptions C88_room_refuted.

(** A rule in the anchor that the daemon did not make, and that has no time, is removed by the
    first check that removes something *)
Theorem C88_foreign_refuted : exists K cf x y now, pf_ok K /\ conf_fits cf /\ held K x /\ shown K y = Some y /\ (forall e, ~ until y e) /\
  match check_firewall_rules machine (run_pfctl K) (feed_pfctl K) cf now (mkCnt 2 now) (put_anchor fresh (p_anchor cf) [y; x; rule0 A1 now], []) with
  | Ok (_, (ac, _)) => ac (p_anchor cf) = [x]
  | Fault => False
  end.
Proof.
  assert (TEN : ten_digits (T0 + 50)) by (vm_compute; split; [discriminate|reflexivity]).
  exists pf0, cf0, (rule0 A2 (T0 + 50)), ($ "pass in quick from 10.0.0.9 to any label " ++ [""""%byte] ++ $ "office" ++ [""""%byte]), T0.
  split; [exact pf0_ok|]. split; [exact cf0_fits|]. split; [apply rule0_ok; [now right|exact TEN]|]. split; [reflexivity|].
  split; [|vm_compute; reflexivity]. intros e (p & ds & q & E & _). 
  assert (C : count_occ byte_eq_dec ($ "pass in quick from 10.0.0.9 to any label " ++ [""""%byte] ++ $ "office" ++ [""""%byte]) "_"%byte = 0%nat) by reflexivity.
  rewrite E, !count_occ_app in C. change (count_occ byte_eq_dec mark "_"%byte) with 2%nat in C. lia.
Qed.
Print Assumptions C88_foreign_refuted.

(** The daemon starts, and adds rules that have no effect, when not its anchor but another one
    whose name ends with the same letters is in the main rules *)
Theorem C88_anchor_refuted : exists K cf, conf_fits cf /\ text_lines (linked K) [$ "myfwknop"] /\ p_anchor cf <> $ "myfwknop" /\
  match fw_initialize machine (run_pfctl K) cf (fresh, []) with Ok (b, _) => b = true | Fault => False end.
Proof.
  exists (mkPfctl shown0 [] ($ "myfwknop" ++ [x0a])), cf0. split; [exact cf0_fits|].
  split; [split; [reflexivity|constructor; [apply no_byte; reflexivity|constructor]]|]. split; [discriminate|vm_compute; reflexivity].
Qed.
Print Assumptions C88_anchor_refuted.

(** A request with an invalid entry is served for the entries before it, on this back end only *)
Theorem C88_entries_refuted : exists K cf d now, pf_ok K /\ conf_fits cf /\ (forall pl, ~ requested (d_remain d) pl) /\
  match process_spa_request machine (run_pfctl K) (feed_pfctl K) cf d now (mkCnt 0 0) (fresh, []) with
  | Ok (r, _, (ac, _)) => r = 0 /\ ac (p_anchor cf) = [rule0 A1 (now + 30)]
  | Fault => False
  end.
Proof.
  exists pf0, cf0, (req A1 ($ "tcp/22,tcp22") 30), T0. split; [exact pf0_ok|]. split; [exact cf0_fits|]. split; [|vm_compute; split; reflexivity].
  intros pl RQ. pose proof (entries_requested _ _ RQ) as E. destruct RQ as (items & L & F). 
  pose proof (expand_port_list_ok _ _ _ L F) as X. vm_compute in X. discriminate X.
Qed.
Print Assumptions C88_entries_refuted.
