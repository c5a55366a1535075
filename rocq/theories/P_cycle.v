(** Proofs about command templates and command cycles. *)
From Verif Require Import Bytes M_util M_message M_codec M_access M_cycle S_text S_access S_cycle
  P_bytes P_util P_util2 P_message P_codec P_access.
From Coq Require Import Init.Byte List ZArith Bool Lia Sorted.
Import ListNotations.
Open Scope Z_scope.

(** ** The buffer: [t] followed by NUL bytes *)
Definition full (t : bytes) : bytes := t ++ repeat x00 (Z.to_nat (256 - zlen t)).
Lemma full_len t : zlen t <= 256 -> zlen (full t) = 256.
Proof. intro L. unfold full. rewrite zlen_app, zlen_repeat. lia. Qed.
Lemma full_split t : zlen t <= 255 -> full t = t ++ x00 :: repeat x00 (Z.to_nat (255 - zlen t)).
Proof. intro L. unfold full. replace (Z.to_nat (256 - zlen t)) with (S (Z.to_nat (255 - zlen t))) by lia. reflexivity. Qed.
Lemma full_cstr t : zlen t <= 255 -> no_nul t -> cstr (full t) = t.
Proof. intros L N. rewrite full_split by lia. apply cstr_app_nul; auto. Qed.
Lemma zdrop_repeat {A} (x : A) n k : 0 <= k -> zdrop k (repeat x n) = repeat x (n - Z.to_nat k).
Proof.
  intro K. unfold zdrop. remember (Z.to_nat k) as m. clear.
  revert m; induction n; intros [|m]; cbn; auto.
Qed.
Lemma full_put t c : zlen t <= 254 -> put (full t) (zlen t) c = Ok (full (t ++ [c])).
Proof.
  intro L. pose proof (zlen_nonneg t). unfold put. rewrite full_len by lia. replace ((0 <=? zlen t) && (zlen t <? 256)) with true by lia.
  f_equal. unfold full at 1. rewrite ztake_app by auto. unfold full.
  replace (zdrop (zlen t + 1) (t ++ repeat x00 (Z.to_nat (256 - zlen t)))) with (repeat x00 (Z.to_nat (255 - zlen t))).
  - rewrite zlen_app. change (zlen [c]) with 1. rewrite <- app_assoc. cbn [app]. do 3 f_equal. lia.
  - replace (t ++ repeat x00 (Z.to_nat (256 - zlen t))) with ((t ++ [x00]) ++ repeat x00 (Z.to_nat (255 - zlen t))).
    + rewrite zdrop_app; auto. rewrite zlen_app. reflexivity.
    + rewrite <- app_assoc. cbn [app]. f_equal. replace (Z.to_nat (256 - zlen t)) with (S (Z.to_nat (255 - zlen t))) by lia. reflexivity.
Qed.
Lemma full_strlcat t v : zlen t + zlen v <= 255 -> no_nul t -> fst (strlcat (full t) v 256) = full (t ++ v).
Proof.
  intros L N. pose proof (zlen_nonneg t). pose proof (zlen_nonneg v). unfold strlcat. rewrite (ztake_all 256) by (rewrite full_len; lia).
  rewrite full_cstr by (auto; lia). replace (256 - zlen t =? 0) with false by lia. cbn [fst].
  rewrite strlcat_loop_spec by lia. rewrite (ztake_all _ v) by lia. rewrite zlen_app. change (zlen [x00]) with 1.
  unfold full. rewrite ztake_app by auto. rewrite <- !app_assoc. f_equal. f_equal.
  unfold zdrop. rewrite skipn_app. rewrite skipn_all2 by (unfold zlen in *; lia). cbn [app].
  replace (Z.to_nat (zlen t + (zlen v + 1)) - length t)%nat with (Z.to_nat (zlen v + 1)) by (unfold zlen in *; lia).
  change (skipn (Z.to_nat (zlen v + 1)) ?x) with (zdrop (zlen v + 1) x). rewrite zdrop_repeat by lia.
  rewrite zlen_app. replace (Z.to_nat (256 - (zlen t + zlen v))) with (S (Z.to_nat (256 - zlen t) - Z.to_nat (zlen v + 1))) by lia. reflexivity.
Qed.

(** ** The loop *)
Lemma skip_var vars t : forall n i buf idx, i + zlen n <= 256 ->
  build_loop vars (n ++ t) i (zlen n) buf idx = build_loop vars t (i + zlen n) 0 buf idx.
Proof.
  induction n as [|c n IH]; intros i buf idx L; [cbn [app]; f_equal; change (zlen (@nil byte)) with 0; lia|].
  rewrite zlen_cons in *. pose proof (zlen_nonneg n). cbn [app build_loop]. unfold CMD_CYCLE_BUFSIZE.
  replace (i >=? 256) with false by lia. replace (1 + zlen n >? 0) with true by lia.
  replace (1 + zlen n - 1) with (zlen n) by lia. rewrite IH by lia. f_equal. lia.
Qed.

Definition vars_of (v : values) : list (bytes * bytes) :=
  [($ "IP", v_ip v); ($ "SRC", v_ip v); ($ "PKT_SRC", v_pkt_src v); ($ "DST", v_dst v);
   ($ "PORT", v_port v); ($ "PROTO", v_proto v); ($ "TIMEOUT", v_timeout v); ($ "CLIENT_TIMEOUT", v_client_timeout v)].
Definition texts_ok (v : values) : Prop := Forall (fun nv => no_nul (snd nv)) (vars_of v).

Lemma find_none v t : Forall (fun n => ~ exists r, t = n ++ r) var_names -> find_var (vars_of v) t = None.
Proof.
  intro F. assert (X : forall n, In n var_names -> is_prefix n t = false).
  { intros n I. rewrite Forall_forall in F. specialize (F n I). destruct (is_prefix n t) eqn:E; auto. apply is_prefix_app in E. tauto. }
  unfold vars_of, find_var. rewrite !X by (unfold var_names; cbn [In]; tauto). reflexivity.
Qed.

Lemma build_loop_ok v : texts_ok v -> forall s o, expands v s o -> forall i t, 0 <= i -> i + zlen s <= 256 -> no_nul s -> no_nul t ->
  zlen t + zlen o <= 255 -> build_loop (vars_of v) s i 0 (full t) (zlen t) = Ok (Some (full (t ++ o))).
Proof.
  intros OK s o X. 
  assert (VAR : forall n val u r, (forall w, is_prefix n w = true -> find_var (vars_of v) w = Some (n, val)) -> no_nul val ->
     (forall i t, 0 <= i -> i + zlen u <= 256 -> no_nul u -> no_nul t -> zlen t + zlen r <= 255 ->
        build_loop (vars_of v) u i 0 (full t) (zlen t) = Ok (Some (full (t ++ r)))) ->
     forall i t, 0 <= i -> i + zlen ("$"%byte :: n ++ u) <= 256 -> no_nul ("$"%byte :: n ++ u) -> no_nul t ->
        zlen t + zlen (val ++ r) <= 255 ->
        build_loop (vars_of v) ("$"%byte :: n ++ u) i 0 (full t) (zlen t) = Ok (Some (full (t ++ val ++ r)))).
  { intros n val u r FV NV IH i t I0 L NS NT LO. rewrite zlen_cons, zlen_app in L. rewrite zlen_app in LO.
    pose proof (zlen_nonneg n). pose proof (zlen_nonneg u). pose proof (zlen_nonneg val). pose proof (zlen_nonneg r).
    cbn [build_loop]. unfold CMD_CYCLE_BUFSIZE. replace (i >=? 256) with false by lia. change (0 >? 0) with false. cbv iota.
    rewrite beq_refl. rewrite FV by (apply is_prefix_app; eauto). rewrite full_strlcat by (auto; lia).
    rewrite skip_var by lia. replace (zlen t + zlen val) with (zlen (t ++ val)) by (rewrite zlen_app; lia).
    rewrite IH; [rewrite <- app_assoc; reflexivity|lia|lia| | |rewrite zlen_app; lia].
    - apply no_nul_cons in NS as [_ NS]. apply no_nul_app in NS. tauto.
    - apply no_nul_app; auto. }
  assert (IN : forall n val, In (n, val) (vars_of v) -> no_nul val).
  { intros n val I. unfold texts_ok in OK. rewrite Forall_forall in OK. exact (OK _ I). }
  induction X; intros i tt I0 L NS NT LO.
  - cbn. rewrite app_nil_r. reflexivity.
  - rewrite zlen_cons in L, LO. apply no_nul_cons in NS as [C0 NS]. pose proof (zlen_nonneg t). pose proof (zlen_nonneg o). cbn [build_loop]. unfold CMD_CYCLE_BUFSIZE.
    replace (i >=? 256) with false by lia. change (0 >? 0) with false. cbv iota.
    replace (beq c "$"%byte) with false by (symmetry; apply beq_neq; auto).
    rewrite full_put by lia. replace (zlen tt + 1 =? 256) with false by lia.
    replace (zlen tt + 1) with (zlen (tt ++ [c])) by (rewrite zlen_app; reflexivity).
    rewrite IHX; try lia; auto.
    + rewrite <- app_assoc. reflexivity.
    + apply no_nul_app. split; auto. apply no_nul_cons. split; auto. apply no_nul_nil.
    + rewrite zlen_app. change (zlen [c]) with 1. lia.
  - rewrite zlen_cons in L. apply no_nul_cons in NS as [C0 NS]. pose proof (zlen_nonneg t). cbn [build_loop]. unfold CMD_CYCLE_BUFSIZE.
    replace (i >=? 256) with false by lia. change (0 >? 0) with false. cbv iota. rewrite beq_refl.
    rewrite find_none by auto. apply IHX; auto; lia.
  - apply (VAR ($ "IP")); auto; [|eapply IN; unfold vars_of; cbn [In]; left; reflexivity].
    intros w W. unfold vars_of. cbn [find_var]. rewrite W. reflexivity.
  - apply (VAR ($ "SRC")); auto; [|eapply IN; unfold vars_of; cbn [In]; right; left; reflexivity].
    intros w W. apply is_prefix_app in W as (r & ->). reflexivity.
  - apply (VAR ($ "PKT_SRC")); auto; [|eapply IN; unfold vars_of; cbn [In]; do 2 right; left; reflexivity].
    intros w W. apply is_prefix_app in W as (r & ->). reflexivity.
  - apply (VAR ($ "DST")); auto; [|eapply IN; unfold vars_of; cbn [In]; do 3 right; left; reflexivity].
    intros w W. apply is_prefix_app in W as (r & ->). reflexivity.
  - apply (VAR ($ "PORT")); auto; [|eapply IN; unfold vars_of; cbn [In]; do 4 right; left; reflexivity].
    intros w W. apply is_prefix_app in W as (r & ->). reflexivity.
  - apply (VAR ($ "PROTO")); auto; [|eapply IN; unfold vars_of; cbn [In]; do 5 right; left; reflexivity].
    intros w W. apply is_prefix_app in W as (r & ->). reflexivity.
  - apply (VAR ($ "TIMEOUT")); auto; [|eapply IN; unfold vars_of; cbn [In]; do 6 right; left; reflexivity].
    intros w W. apply is_prefix_app in W as (r & ->). reflexivity.
  - apply (VAR ($ "CLIENT_TIMEOUT")); auto; [|eapply IN; unfold vars_of; cbn [In]; do 7 right; left; reflexivity].
    intros w W. apply is_prefix_app in W as (r & ->). reflexivity.
Qed.

Lemma expands_no_nul v s o : texts_ok v -> expands v s o -> no_nul s -> no_nul o.
Proof.
  intros OK X. assert (IN : forall n val, In (n, val) (vars_of v) -> no_nul val).
  { intros n val I. unfold texts_ok in OK. rewrite Forall_forall in OK. exact (OK _ I). }
  induction X; intro NS; auto.
  - apply no_nul_cons in NS. apply no_nul_cons. tauto.
  - apply no_nul_cons in NS. tauto.
  - apply no_nul_app in NS. apply no_nul_app. split; [eapply IN; unfold vars_of; cbn [In]; left; reflexivity|tauto].
  - apply no_nul_app in NS. apply no_nul_app. split; [eapply IN; unfold vars_of; cbn [In]; left; reflexivity|tauto].
  - apply no_nul_app in NS. apply no_nul_app. split; [eapply IN; unfold vars_of; cbn [In]; do 2 right; left; reflexivity|tauto].
  - apply no_nul_app in NS. apply no_nul_app. split; [eapply IN; unfold vars_of; cbn [In]; do 3 right; left; reflexivity|tauto].
  - apply no_nul_app in NS. apply no_nul_app. split; [eapply IN; unfold vars_of; cbn [In]; do 4 right; left; reflexivity|tauto].
  - apply no_nul_app in NS. apply no_nul_app. split; [eapply IN; unfold vars_of; cbn [In]; do 5 right; left; reflexivity|tauto].
  - apply no_nul_app in NS. apply no_nul_app. split; [eapply IN; unfold vars_of; cbn [In]; do 6 right; left; reflexivity|tauto].
  - apply no_nul_app in NS. apply no_nul_app. split; [eapply IN; unfold vars_of; cbn [In]; do 7 right; left; reflexivity|tauto].
Qed.

(** Every template has an expansion. *)
Lemma expands_total v : forall n s, (length s <= n)%nat -> exists o, expands v s o.
Proof.
  induction n as [|n IH]; intros [|c s] L; try (exists []; constructor); [cbn in L; lia|].
  cbn in L. destruct (beq_spec c "$"%byte) as [->|D].
  2:{ destruct (IH s ltac:(lia)) as (o & X). exists (c :: o). constructor; auto. }
  destruct (forallb (fun n => negb (is_prefix n s)) var_names) eqn:F.
  - destruct (IH s ltac:(lia)) as (o & X). exists o. apply x_drop; auto. apply Forall_forall. intros m I (r & E).
    rewrite forallb_forall in F. specialize (F m I). assert (is_prefix m s = true) by (apply is_prefix_app; eauto). rewrite H in F. discriminate.
  - assert (E : exists m, In m var_names /\ is_prefix m s = true).
    { clear -F. induction var_names as [|m l IHl]; [discriminate|]. cbn [forallb] in F. destruct (is_prefix m s) eqn:P.
      - exists m. cbn. auto. - destruct (IHl F) as (x & I & E). exists x. cbn. auto. }
    destruct E as (m & I & P). apply is_prefix_app in P as (r & ->). rewrite app_length in L. destruct (IH r ltac:(lia)) as (o & X).
    unfold var_names in I. cbn [In] in I.
    destruct I as [<-|[<-|[<-|[<-|[<-|[<-|[<-|[<-|I]]]]]]]]; [| | | | | | | |destruct I]; eexists;
      [apply x_ip|apply x_src|apply x_pkt_src|apply x_dst|apply x_port|apply x_proto|apply x_timeout|apply x_client]; exact X.
Qed.

(** ** The values *)
Lemma dec_writes n : 0 <= n < 10 ^ 19 -> writes (dec n) n /\ no_nul (dec n).
Proof.
  intro R. destruct (dec_spec n ltac:(lia)) as (D & E & L & K). split; [split|].
  - intro X. rewrite X in L. revert L. vm_compute. intro A. apply A. reflexivity.
  - split; [exact D|]. split; [exact E|]. intro Z0. remember (dec n) as s eqn:S. destruct s as [|c s]; [discriminate|].
    cbn in Z0. subst c. destruct s as [|c s]; [reflexivity|]. exfalso.
    inversion D; subst. rewrite decimal_cons in K. change (bv "0"%byte - 48) with 0 in K.
    pose proof (decimal_bound (c :: s) H2). rewrite !zlen_cons in *. pose proof (zlen_nonneg s).
    specialize (K (1 + zlen s) ltac:(lia)). lia.
  - intro I. unfold all_digits in D. rewrite Forall_forall in D. specialize (D x00 I). revert D. unfold digit. vm_compute. intros [A _]. apply A. reflexivity.
Qed.
Lemma snprintf_all size s : zlen s <= size - 1 -> snprintf size s = s.
Proof. intro L. unfold snprintf. apply ztake_all. lia. Qed.

Definition the_values (d : spa_data) (timer proto port : Z) : values :=
  mkValues (d_use d) (d_pkt_src d) (d_pkt_dst d) (dec port) (dec proto)
           (dec (d_time d + cycle_time timer d)) (dec (cycle_time timer d)).

Lemma first_port_list d proto port : first_port d proto port ->
  exists r, expand_acc_port_list (d_remain d) = Some ((proto, port) :: r).
Proof.
  intros (it & its & p & ds & E & F & I & D & P & PR).
  assert (X : exists pl, Forall2 (fun it e => port_entry it (fst e) (snd e) /\ zlen it <= 31) (it :: its) pl).
  { clear -F. induction F as [|x l P F [pl IH]]; [exists []; constructor|].
    destruct (proto_port_entry x P) as (e & Q). exists (e :: pl). constructor; auto. }
  destruct X as (pl & X).
  assert (L : listed (d_remain d) (it :: its)).
  { exists (it :: its). split; auto. split; [discriminate|]. split.
    - clear -F. induction F; constructor; auto. apply proto_port_no_comma; auto.
    - clear -F. induction F as [|x l P F IH]; constructor; auto. exists []. split; auto. split; [constructor|].
      destruct P as (p & ds & [-> | ->] & -> & _); cbn; unfold blank; vm_compute; intuition congruence. }
  pose proof (expand_port_list_ok _ _ _ L X) as Q. inversion X; subst. destruct y as [a b]. exists l'. rewrite Q.
  destruct H1 as [H1 _]. cbn [fst snd] in H1.
  assert (PE : port_entry (p ++ ["/"%byte] ++ ds) proto (decimal ds)).
  { inversion F; subst. destruct H2 as (p' & ds' & P' & E2 & L2 & D2 & R2).
    assert (p = p' /\ ds = ds') as [<- <-].
    { assert (zlen p = 3) by (destruct PR as [[-> _]|[-> _]]; reflexivity). assert (zlen p' = 3) by (destruct P' as [-> | ->]; reflexivity).
      destruct (app_eq_len p (["/"%byte] ++ ds) p' (["/"%byte] ++ ds')) as [A B]; auto; [unfold zlen in *; lia|]. inversion B. auto. }
    exists p, ds. split; [reflexivity|]. split; [destruct PR as [[-> _]|[-> _]]; vm_compute; congruence|].
    split; [destruct PR as [[-> ->]|[-> ->]]; [left|right]; split; reflexivity|]. split; [|lia].
    exists [], ds. split; auto. split; [constructor|]. destruct ds as [|x ds']; [revert L2; vm_compute; intros [W _]; exfalso; apply W; reflexivity|].
    inversion D as [|? ? DX DR]; subst. unfold digit in DX. split; [cbn; unfold blank; lia|]. right. right. cbn [hd].
    split; [intros ->; revert DX; vm_compute; intros [W _]; apply W; reflexivity|].
    split; [intros ->; revert DX; vm_compute; intros [W _]; apply W; reflexivity|].
    exists (x :: ds'), []. rewrite app_nil_r. repeat split; auto. }
  destruct (port_entry_unique _ _ _ _ _ H1 PE) as [-> ->]. reflexivity.
Qed.

Definition no_nuls (d : spa_data) : Prop := no_nul (d_use d) /\ no_nul (d_pkt_src d) /\ no_nul (d_pkt_dst d).

Lemma first_port_range d proto port : first_port d proto port -> (proto = 6 \/ proto = 17) /\ 1 <= port <= 65535.
Proof.
  intros (it & its & p & ds & E & F & I & D & P & PR). split; [destruct PR as [[_ ->]|[_ ->]]; auto|].
  inversion F; subst. destruct H1 as (p' & ds' & P' & E2 & L2 & D2 & R2).
  assert (p = p' /\ ds = ds') as [<- <-]; [|lia].
  assert (zlen p = 3) by (destruct PR as [[-> _]|[-> _]]; reflexivity). assert (zlen p' = 3) by (destruct P' as [-> | ->]; reflexivity).
  destruct (app_eq_len p (["/"%byte] ++ ds) p' (["/"%byte] ++ ds')) as [A B]; auto; [unfold zlen in *; lia|]. inversion B. auto.
Qed.

Theorem build_cmd_ok d timer proto port secs : first_port d proto port -> no_nuls d -> secs = cycle_time timer d ->
  0 <= secs < 10 ^ 9 -> 0 <= d_time d + secs < 10 ^ 19 ->
  exists v, request_values d proto port secs v /\
    forall t o, expands v t o -> no_nul t -> zlen t <= 256 -> zlen o <= 255 -> build_cmd d t timer = Ok (Some o).
Proof.
  intros FP (N1 & N2 & N3) -> R1 R2. exists (the_values d timer proto port).
  pose proof (first_port_range _ _ _ FP) as [PR QR].
  destruct (dec_writes port ltac:(lia)) as [W1 M1]. destruct (dec_writes proto ltac:(lia)) as [W2 M2].
  destruct (dec_writes (d_time d + cycle_time timer d) ltac:(lia)) as [W3 M3]. destruct (dec_writes (cycle_time timer d) ltac:(lia)) as [W4 M4].
  split; [repeat (split; [reflexivity || assumption|]); assumption|].
  intros t o X NT LT LO. destruct (first_port_list _ _ _ FP) as (r & E). unfold build_cmd. rewrite E.
  assert (OK : texts_ok (the_values d timer proto port)) by (unfold texts_ok, vars_of; repeat constructor; assumption).
  assert (V : cycle_vars d timer (proto, port) = vars_of (the_values d timer proto port)).
  { assert (DI : forall n, 0 <= n -> dec_i n = dec n) by (intros n Q; unfold dec_i; replace (n <? 0) with false by lia; reflexivity).
    unfold cycle_vars, vars_of, the_values. cbn [fst snd v_ip v_pkt_src v_dst v_port v_proto v_timeout v_client_timeout].
    rewrite !DI by lia. unfold MAX_PORT_STR_LEN, MAX_PROTO_STR_LEN.
    rewrite !snprintf_all; auto.
    - destruct (dec_spec (cycle_time timer d) ltac:(lia)) as (_ & _ & _ & K). apply (K 9); lia.
    - destruct (dec_spec (d_time d + cycle_time timer d) ltac:(lia)) as (_ & _ & _ & K). apply (K 19); lia.
    - destruct (dec_spec proto ltac:(lia)) as (_ & _ & _ & K). apply (K 4); lia.
    - destruct (dec_spec port ltac:(lia)) as (_ & _ & _ & K). apply (K 5); lia. }
  rewrite V. change (repeat x00 256) with (full []). change (build_loop (vars_of (the_values d timer proto port)) t 0 0 (full []) 0)
    with (build_loop (vars_of (the_values d timer proto port)) t 0 0 (full []) (zlen (@nil byte))).
  rewrite (build_loop_ok _ OK t o X); auto; try lia; [|apply no_nul_nil].
  cbn [app]. rewrite full_cstr; auto. eapply expands_no_nul; eauto.
Qed.
Lemma fills_expands v t o : fills v t o -> expands v t o.
Proof.
  induction 1; [apply x_end|apply x_char; auto|apply x_ip|apply x_src|apply x_pkt_src|apply x_dst|apply x_port|apply x_proto|apply x_timeout|apply x_client]; auto.
Qed.

(** ** What a built command looks like *)
Definition terminated (buf : bytes) : Prop := exists b, buf = b ++ [x00] /\ zlen b = 255.
Lemma strlcat_terminated buf v : terminated buf -> terminated (fst (strlcat buf v 256)).
Proof.
  intros (b & -> & L). unfold strlcat. rewrite (ztake_all 256) by (rewrite zlen_app; change (zlen [x00]) with 1; lia).
  assert (C : zlen (cstr (b ++ [x00])) <= 255).
  { destruct (cstr_prefix (b ++ [x00])) as (t & E & [->|(u & ->)]).
    - exfalso. rewrite app_nil_r in E. pose proof (cstr_no_nul (b ++ [x00])) as N. rewrite <- E in N. apply N. apply in_or_app. right. left. reflexivity.
    - apply (f_equal zlen) in E. rewrite !zlen_app, (zlen_cons x00 u) in E. change (zlen [x00]) with 1 in E. pose proof (zlen_nonneg u). lia. }
  assert (N0 := zlen_nonneg (cstr (b ++ [x00]))). set (n := zlen (cstr (b ++ [x00]))) in *. clearbody n.
  replace (256 - n =? 0) with false by lia. cbn [fst]. rewrite strlcat_loop_spec by lia.
  set (w := ztake (256 - n - 1) v). assert (W : zlen w <= 255 - n) by (unfold w, ztake, zlen; rewrite firstn_length; lia).
  rewrite zlen_app. change (zlen [x00]) with 1. pose proof (zlen_nonneg w).
  assert (T : ztake n (b ++ [x00]) = ztake n b).
  { unfold ztake. rewrite firstn_app. replace (Z.to_nat n - length b)%nat with 0%nat by (unfold zlen in *; lia). rewrite app_nil_r. reflexivity. }
  rewrite T. assert (TL : zlen (ztake n b) = n) by (apply zlen_ztake; lia).
  destruct (Z.eq_dec (n + (zlen w + 1)) 256) as [Q|Q].
  - exists (ztake n b ++ w). split.
    + rewrite Q. replace (zdrop 256 (b ++ [x00])) with (@nil byte). * rewrite app_nil_r, app_assoc. reflexivity.
      * symmetry. unfold zdrop. apply skipn_all2. rewrite app_length. unfold zlen in *. cbn [length]. lia.
    + rewrite zlen_app. lia.
  - exists (ztake n b ++ (w ++ [x00]) ++ zdrop (n + (zlen w + 1)) b). split.
    + rewrite <- !app_assoc. do 3 f_equal. unfold zdrop. rewrite skipn_app. f_equal.
      replace (Z.to_nat (n + (zlen w + 1)) - length b)%nat with 0%nat by (unfold zlen in *; lia). reflexivity.
    + rewrite !zlen_app, zlen_zdrop by lia. change (zlen [x00]) with 1. lia.
Qed.
Lemma build_loop_terminated vars s : forall i skip buf idx out, terminated buf ->
  build_loop vars s i skip buf idx = Ok (Some out) -> terminated out.
Proof.
  induction s as [|c s IH]; intros i skip buf idx out T E; cbn [build_loop] in E; [inversion E; subst; auto|].
  destruct (_ >=? _); [inversion E; subst; auto|]. destruct (_ >? _); [eapply IH; eauto|]. destruct (beq _ _).
  - destruct (find_var _ _) as [[n v]|].
    + eapply IH; [|exact E]. apply strlcat_terminated. auto.
    + eapply IH; eauto.
  - unfold put in E. destruct T as (b & -> & L). rewrite zlen_app in E. change (zlen [x00]) with 1 in E.
    destruct (_ && _) eqn:P; [|discriminate]. unfold CMD_CYCLE_BUFSIZE in E. destruct (idx + 1 =? 256) eqn:Q; [discriminate|].
    eapply IH; [|exact E]. exists (ztake idx b ++ c :: zdrop (idx + 1) b). split.
    + rewrite <- app_assoc. cbn [app]. unfold ztake, zdrop. rewrite firstn_app, skipn_app.
      replace (Z.to_nat idx - length b)%nat with 0%nat by (unfold zlen in *; lia).
      replace (Z.to_nat (idx + 1) - length b)%nat with 0%nat by (unfold zlen in *; lia). cbn [firstn skipn]. rewrite app_nil_r. reflexivity.
    + rewrite zlen_app, zlen_cons, zlen_ztake, zlen_zdrop by lia. lia.
Qed.
Lemma build_cmd_len d t timer o : build_cmd d t timer = Ok (Some o) -> zlen o <= 255 /\ no_nul o.
Proof.
  unfold build_cmd. destruct (expand_acc_port_list _) as [[|pp r]|]; try discriminate.
  destruct (build_loop _ _ _ _ _ _) as [[buf|]|] eqn:E; try discriminate. intro Q; inversion Q; subst. split; [|apply cstr_no_nul].
  apply build_loop_terminated in E.
  - destruct E as (b & -> & L). destruct (cstr_prefix (b ++ [x00])) as (u & E & [->|(w & ->)]).
    + exfalso. rewrite app_nil_r in E. pose proof (cstr_no_nul (b ++ [x00])) as N. rewrite <- E in N. apply N. apply in_or_app. right. left. reflexivity.
    + apply (f_equal zlen) in E. rewrite !zlen_app, (zlen_cons x00 w) in E. change (zlen [x00]) with 1 in E. pose proof (zlen_nonneg w). lia.
  - exists (repeat x00 255). split; [reflexivity|]. rewrite zlen_repeat. reflexivity.
Qed.

(** ** Closing cycles *)
Definition due (now : Z) (c : cycle) : bool := cy_expire c <=? now.
Lemma find_due_none now l : forall i prev, filter (due now) l = [] -> fst (find_due now l i prev) = None.
Proof.
  induction l as [|c l IH]; intros i prev F; [reflexivity|]. cbn [filter] in F. cbn [find_due]. unfold due in F at 1.
  destruct (cy_expire c <=? now); [discriminate|]. apply IH. auto.
Qed.
Lemma find_due_some now c post : due now c = true -> forall pre i prev, Forall (fun x => due now x = false) pre ->
  find_due now (pre ++ c :: post) i prev =
    (Some ((i + length pre)%nat, c), match pre with [] => prev | _ => Some (i + length pre - 1)%nat end).
Proof.
  intro D. induction pre as [|x pre IH]; intros i prev F; cbn [app find_due length].
  - unfold due in D. rewrite D. rewrite Nat.add_0_r. reflexivity.
  - inversion F; subst. unfold due in H1. rewrite H1. rewrite IH by auto. destruct pre as [|y pre].
    + cbn [length]. replace (i + 1 - 1)%nat with i by lia. replace (S i + 0)%nat with (i + 1)%nat by lia. reflexivity.
    + cbn [length]. replace (S i + S (length pre))%nat with (i + S (S (length pre)))%nat by lia. reflexivity.
Qed.
Lemma split_due now l : filter (due now) l = [] \/
  exists pre c post, l = pre ++ c :: post /\ due now c = true /\ Forall (fun x => due now x = false) pre.
Proof.
  induction l as [|c l [IH|(pre & x & post & -> & D & F)]]; [left; reflexivity| |].
  - cbn [filter]. destruct (due now c) eqn:D; [right; exists [], c, l; auto|left; auto].
  - right. destruct (due now c) eqn:E; [exists [], c, (pre ++ x :: post); auto|exists (c :: pre), x, post; auto].
Qed.
Lemma filter_none {A} (f : A -> bool) l : Forall (fun x => f x = false) l -> filter f l = [].
Proof. induction 1 as [|x l E F IH]; [reflexivity|]. cbn. rewrite E. auto. Qed.
Lemma filter_keep {A} (f : A -> bool) l : Forall (fun x => f x = true) l -> filter f l = l.
Proof. induction 1 as [|x l E F IH]; [reflexivity|]. cbn. rewrite E, IH. auto. Qed.
Lemma filter_nil_keep {A} (f : A -> bool) l : filter f l = [] -> filter (fun x => negb (f x)) l = l.
Proof. induction l as [|x l IH]; [reflexivity|]. cbn. destruct (f x); [discriminate|]. intro E. cbn. rewrite IH; auto. Qed.

Lemma close_loop_spec now : forall fuel l prev, (length l < fuel)%nat ->
  (prev = None \/ exists x r, l = x :: r /\ due now x = false) ->
  close_loop fuel now l prev = Ok (filter (due now) l, filter (fun c => negb (due now c)) l).
Proof.
  induction fuel as [|fuel IH]; intros l prev L I; [lia|]. cbn [close_loop].
  destruct (split_due now l) as [N|(pre & c & post & -> & D & F)].
  - pose proof (find_due_none now l 0%nat prev N) as E. destruct (find_due now l 0 prev) as [o p]. cbn in E. subst o.
    rewrite N, filter_nil_keep by auto. reflexivity.
  - rewrite (find_due_some now c post D pre 0%nat prev F). cbn [Nat.add].
    rewrite app_length in L. cbn [length] in L.
    assert (FD : filter (due now) (pre ++ c :: post) = c :: filter (due now) (pre ++ post)).
    { rewrite !filter_app. cbn [filter]. rewrite D, (filter_none _ pre F). reflexivity. }
    assert (FN : filter (fun c => negb (due now c)) (pre ++ c :: post) = filter (fun c => negb (due now c)) (pre ++ post)).
    { rewrite !filter_app. cbn [filter]. rewrite D. reflexivity. }
    assert (SK : skipn (S (length pre)) (pre ++ c :: post) = post).
    { rewrite skipn_app. rewrite skipn_all2 by lia. replace (S (length pre) - length pre)%nat with 1%nat by lia. reflexivity. }
    rewrite SK, FD, FN. destruct pre as [|x pre].
    + destruct I as [-> |(x & r & E & X)]; [|inversion E; subst; congruence]. cbn [app].
      rewrite IH; [reflexivity|cbn [length] in *; lia|auto].
    + inversion F; subst. cbn [length]. replace (S (length pre) - 1)%nat with (length pre) by lia.
      replace (Nat.ltb (length pre) (S (length pre))) with true by (symmetry; apply Nat.ltb_lt; lia).
      assert (FI : firstn (S (length pre)) ((x :: pre) ++ c :: post) = x :: pre).
      { rewrite firstn_app. cbn [length]. replace (S (length pre) - S (length pre))%nat with 0%nat by lia. cbn [firstn]. rewrite app_nil_r, firstn_all. reflexivity. }
      rewrite FI. rewrite IH; [reflexivity|rewrite app_length; cbn [length] in *; lia|]. right. exists x, (pre ++ post). auto.
Qed.
Theorem cmd_cycle_close_spec now l :
  cmd_cycle_close now l = Ok (filter (due now) l, filter (fun c => negb (due now c)) l).
Proof. unfold cmd_cycle_close. apply close_loop_spec; auto. Qed.

(** ** Histories *)
Definition cstep (l : list cycle) (e : cevent) : outcome (list bytes * list cycle) :=
  match e with
  | Open cc d num now => match cmd_cycle_open cc d num now l with Ok (_, ran, l') => Ok (ran, l') | Fault => Fault end
  | Tick now => match cmd_cycle_close now l with Ok (ran, l') => Ok (map cy_close ran, l') | Fault => Fault end
  end.
Lemma cruns_cons l e r : cruns l (e :: r) =
  match cstep l e with Fault => Fault | Ok (ran, l') => match cruns l' r with Fault => Fault | Ok (log, l'') => Ok (ran :: log, l'') end end.
Proof. destruct e; reflexivity. Qed.
Lemma cruns_app a : forall l b log fin, cruns l (a ++ b) = Ok (log, fin) ->
  exists la mid lb, cruns l a = Ok (la, mid) /\ cruns mid b = Ok (lb, fin) /\ log = la ++ lb /\ length la = length a.
Proof.
  induction a as [|e a IH]; intros l b log fin E; cbn [app] in E.
  - exists [], l, log. auto.
  - rewrite cruns_cons in *. destruct (cstep l e) as [[ran l']|]; [|discriminate]. destruct (cruns l' (a ++ b)) as [[lg f]|] eqn:Q; [|discriminate].
    inversion E; subst. destruct (IH _ _ _ _ Q) as (la & mid & lb & E1 & E2 & -> & L). rewrite E1.
    exists (ran :: la), mid, lb. repeat split; auto. cbn. lia.
Qed.

Lemma opens_functional evs i c1 a1 c2 a2 : opens evs i c1 a1 -> opens evs i c2 a2 -> c1 = c2 /\ a1 = a2.
Proof.
  intros (cc & d & num & now & o & s & E & B & C & D & L & A) (cc' & d' & num' & now' & o' & s' & E' & B' & C' & D' & L' & A').
  rewrite E in E'. inversion E'; subst. split; [congruence|]. unfold lasts in *. destruct L, L'; lia.
Qed.
Lemma opens_app evs e i c a : (i < length evs)%nat -> opens (evs ++ e) i c a <-> opens evs i c a.
Proof.
  intro L. unfold opens. split; intros (cc & d & num & now & o & s & E & R); exists cc, d, num, now, o, s; split; auto.
  - rewrite nth_error_app1 in E by auto. auto.
  - rewrite nth_error_app1 by auto. auto.
Qed.
Lemma opens_lt evs i c a : opens evs i c a -> (i < length evs)%nat.
Proof. intros (cc & d & num & now & o & s & E & R). apply nth_error_Some. congruence. Qed.

Definition pending (evs : list cevent) (i : nat) (c : bytes) (a : Z) : Prop :=
  opens evs i c a /\ forall k now, (i < k)%nat -> nth_error evs k = Some (Tick now) -> now < a.
Definition before {A} (x y : nat * A) : Prop := (fst x < fst y)%nat.
Definition holds (evs : list cevent) (pl : list (nat * cycle)) : Prop :=
  StronglySorted before pl /\
  forall i c a, pending evs i c a <-> exists cy, In (i, cy) pl /\ cy_close cy = c /\ cy_expire cy = a.

Lemma sorted_filter {A} (R : A -> A -> Prop) f l : StronglySorted R l -> StronglySorted R (filter f l).
Proof.
  induction 1 as [|x l S IH F]; [constructor|]. cbn. destruct (f x); auto. constructor; auto.
  clear -F. induction F; cbn; [constructor|]. destruct (f x0); auto.
Qed.
Lemma sorted_snoc {A} (R : A -> A -> Prop) l x : StronglySorted R l -> Forall (fun y => R y x) l -> StronglySorted R (l ++ [x]).
Proof.
  induction 1 as [|y l S IH F]; intro G; cbn; [repeat constructor|]. inversion G; subst. constructor; auto.
  apply Forall_app. auto.
Qed.
Lemma map_filter_snd {A B} (f : B -> bool) (l : list (A * B)) : map snd (filter (fun p => f (snd p)) l) = filter f (map snd l).
Proof. induction l as [|x l IH]; [reflexivity|]. cbn. destruct (f (snd x)); cbn; rewrite IH; reflexivity. Qed.

Lemma pending_snoc_open evs cc d num now : forall i c a, (i < length evs)%nat ->
  pending (evs ++ [Open cc d num now]) i c a <-> pending evs i c a.
Proof.
  intros i c a L. unfold pending. rewrite opens_app by auto. split; intros [O T]; split; auto; intros k n K E.
  - apply (T k n K). rewrite nth_error_app1; auto. apply nth_error_Some. congruence.
  - destruct (Nat.lt_ge_cases k (length evs)) as [X|X].
    + apply (T k n K). rewrite nth_error_app1 in E by auto. auto.
    + rewrite nth_error_app2 in E by auto. destruct (k - length evs)%nat as [|m]; [discriminate|destruct m; discriminate].
Qed.
Lemma pending_snoc_tick evs now : forall i c a, pending (evs ++ [Tick now]) i c a <-> pending evs i c a /\ now < a.
Proof.
  intros i c a. split.
  - intros [O T]. assert (L := opens_lt _ _ _ _ O). rewrite app_length in L. cbn in L.
    assert (L' : (i < length evs)%nat).
    { destruct (Nat.eq_dec i (length evs)); [|lia]. subst i. destruct O as (cc & d & num & n & o & s & E & _).
      rewrite nth_error_app2 in E by lia. replace (length evs - length evs)%nat with 0%nat in E by lia. discriminate. }
    rewrite opens_app in O by auto. split; [split; auto|].
    + intros k n K E. apply (T k n K). rewrite nth_error_app1; auto. apply nth_error_Some. congruence.
    + apply (T (length evs) now); auto. rewrite nth_error_app2 by lia. replace (length evs - length evs)%nat with 0%nat by lia. reflexivity.
  - intros [[O T] N]. assert (L := opens_lt _ _ _ _ O). split; [apply opens_app; auto|].
    intros k n K E. destruct (Nat.lt_ge_cases k (length evs)) as [X|X].
    + apply (T k n K). rewrite nth_error_app1 in E by auto. auto.
    + rewrite nth_error_app2 in E by auto. destruct (k - length evs)%nat as [|m]; [inversion E; subst; auto|destruct m; discriminate].
Qed.
Lemma pending_lt evs i c a : pending evs i c a -> (i < length evs)%nat.
Proof. intros [O _]. eapply opens_lt; eauto. Qed.

Lemma open_step evs pl cc d num now ran l' : holds evs pl -> cmd_cycle_open cc d num now (map snd pl) = Ok ran -> snd ran = l' ->
  exists pl', holds (evs ++ [Open cc d num now]) pl' /\ l' = map snd pl'.
Proof.
  intros (S & P) E <-. set (e := Open cc d num now).
  assert (NTH : nth_error (evs ++ [e]) (length evs) = Some e).
  { rewrite nth_error_app2 by lia. replace (length evs - length evs)%nat with 0%nat by lia. reflexivity. }
  assert (IDX : forall i c a, pending (evs ++ [e]) i c a -> (i < length evs)%nat \/ i = length evs).
  { intros i c a X. apply pending_lt in X. rewrite app_length in X. cbn in X. lia. }
  assert (SAME : forall i c a, pending (evs ++ [e]) i c a /\ (i < length evs)%nat <-> exists cy, In (i, cy) pl /\ cy_close cy = c /\ cy_expire cy = a).
  { intros i c a. rewrite <- P. split.
    - intros [X L]. apply (pending_snoc_open evs cc d num now) in X; auto.
    - intro X. assert (L := pending_lt _ _ _ _ X). split; auto. apply pending_snoc_open; auto. }
  assert (NONE : (forall c a, ~ opens (evs ++ [e]) (length evs) c a) -> holds (evs ++ [e]) pl).
  { intro N. split; auto. intros i c a. rewrite <- SAME. split; [|tauto]. intro X. split; auto.
    destruct (IDX _ _ _ X) as [L|L]; auto. subst i. exfalso. eapply N. destruct X as [O _]. exact O. }
  unfold cmd_cycle_open in E. destruct (build_cmd d (cc_open cc) (cc_timer cc)) as [[o|]|] eqn:B1; [| |discriminate].
  2:{ inversion E; subst. exists pl. split; auto. apply NONE. intros c a (cc' & d' & num' & now' & o & s & Q & B & _).
      rewrite NTH in Q. inversion Q; subst. congruence. }
  destruct (cc_do_close cc) eqn:DC.
  2:{ inversion E; subst. exists pl. split; auto. apply NONE. intros c a (cc' & d' & num' & now' & o' & s & Q & B & C & _).
      rewrite NTH in Q. inversion Q; subst. congruence. }
  destruct (build_cmd d (cc_close cc) (cc_timer cc)) as [[cl|]|] eqn:B2; [| |discriminate].
  2:{ inversion E; subst. exists pl. split; auto. apply NONE. intros c a (cc' & d' & num' & now' & o' & s & Q & B & C & D & _).
      rewrite NTH in Q. inversion Q; subst. congruence. }
  cbv zeta in E. destruct (build_cmd_len _ _ _ _ B2) as [CL _]. pose proof (zlen_nonneg cl).
  inversion E; subst ran; clear E. cbn [snd].
  set (cy := mkCycle _ _ _ _). exists (pl ++ [(length evs, cy)]). split; [|rewrite map_app; reflexivity]. split.
  - apply sorted_snoc; auto. apply Forall_forall. intros [i y] I. unfold before. cbn [fst].
    assert (X : pending evs i (cy_close y) (cy_expire y)) by (apply P; eauto). apply pending_lt in X. auto.
  - assert (CYC : cy_close cy = cl).
    { unfold cy. cbn [cy_close]. unfold strnlen, CMD_CYCLE_BUFSIZE. apply ztake_all. lia. }
    assert (CYE : cy_expire cy = now + cycle_time (cc_timer cc) d) by reflexivity.
    assert (OP : opens (evs ++ [e]) (length evs) cl (now + cycle_time (cc_timer cc) d)).
    { exists cc, d, num, now, o, (cycle_time (cc_timer cc) d). split; [exact NTH|]. split; [exact B1|]. split; [exact DC|]. split; [exact B2|]. split; [|reflexivity].
      unfold lasts, cycle_time. destruct (d_client_timeout d =? 0) eqn:Q; [left; lia|right; lia]. }
    intros i c a. split.
    + intro X. destruct (IDX _ _ _ X) as [L|L].
      * destruct (proj1 (SAME i c a) (conj X L)) as (y & I & R). exists y. split; auto. apply in_or_app. auto.
      * subst i. destruct X as [O _]. destruct (opens_functional _ _ _ _ _ _ O OP) as [-> ->]. exists cy. split; auto.
        apply in_or_app. right. left. reflexivity.
    + intros (y & I & R1 & R2). apply in_app_or in I as [I|[I|[]]].
      * apply SAME. eauto.
      * inversion I; subst i y. rewrite CYC in R1. rewrite CYE in R2. subst c a. split; auto.
        intros k n K Q. assert (K2 : (k < length (evs ++ [e]))%nat) by (apply nth_error_Some; congruence). rewrite app_length in K2. cbn in K2. lia.
Qed.
Lemma tick_step evs pl now : holds evs pl ->
  holds (evs ++ [Tick now]) (filter (fun p => negb (due now (snd p))) pl).
Proof.
  intros (S & P). split; [apply sorted_filter; auto|]. intros i c a. rewrite pending_snoc_tick, P. split.
  - intros [(cy & I & C & A) N]. exists cy. split; auto. apply filter_In. split; auto. cbn. unfold due. destruct (cy_expire cy <=? now) eqn:Q; [lia|reflexivity].
  - intros (cy & I & C & A). apply filter_In in I as [I D]. cbn in D. unfold due in D. split; [eauto|]. destruct (cy_expire cy <=? now) eqn:Q; [discriminate|lia].
Qed.
Lemma holds_run : forall evs log fin, cruns [] evs = Ok (log, fin) -> exists pl, holds evs pl /\ fin = map snd pl.
Proof.
  intro evs. induction evs as [|e evs IH] using rev_ind; intros log fin E.
  - inversion E; subst. exists []. split; auto. split; [constructor|]. intros i c a. split; [|intros (y & [] & _)].
    intro X. apply pending_lt in X. cbn in X. lia.
  - destruct (cruns_app _ _ _ _ _ E) as (la & mid & lb & E1 & E2 & -> & L). destruct (IH _ _ E1) as (pl & Hd & ->).
    rewrite cruns_cons in E2. destruct (cstep (map snd pl) e) as [[ran l']|] eqn:C; [|discriminate]. inversion E2; subst.
    destruct e as [cc d num now|now]; cbn [cstep] in C.
    + destruct (cmd_cycle_open cc d num now (map snd pl)) as [[[r ran'] l'']|] eqn:O; [|discriminate]. inversion C; subst.
      eapply open_step; eauto.
    + rewrite cmd_cycle_close_spec in C. inversion C; subst. exists (filter (fun p => negb (due now (snd p))) pl).
      split; [apply tick_step; auto|]. rewrite (map_filter_snd (fun c => negb (due now c))). reflexivity.
Qed.

Theorem closed_once : forall evs log fin, cruns [] evs = Ok (log, fin) ->
  forall j now, nth_error evs j = Some (Tick now) ->
  exists ps, StronglySorted (fun x y => (fst x < fst y)%nat) ps /\ nth_error log j = Some (map snd ps) /\
    forall i cmd, In (i, cmd) ps <-> closes_at evs i j cmd.
Proof.
  intros evs log fin E j now N. destruct (nth_error_split evs j N) as (a & b & -> & LJ).
  destruct (cruns_app _ _ _ _ _ E) as (la & mid & lb & E1 & E2 & -> & L). destruct (holds_run _ _ _ E1) as (pl & (S & P) & ->).
  rewrite cruns_cons in E2. cbn [cstep] in E2. rewrite cmd_cycle_close_spec in E2.
  destruct (cruns _ b) as [[lg f]|]; [|discriminate]. inversion E2; subst lb fin; clear E2.
  set (dl := filter (fun p => due now (snd p)) pl). exists (map (fun p => (fst p, cy_close (snd p))) dl).
  split; [|split].
  - assert (SD : StronglySorted before dl) by (apply sorted_filter; auto). clear -SD. induction SD as [|x l S IH F]; cbn; constructor; auto.
    clear -F. induction F; cbn; constructor; auto.
  - rewrite nth_error_app2 by lia. replace (j - length la)%nat with 0%nat by lia. cbn [nth_error]. f_equal.
    rewrite map_map. unfold dl. rewrite <- (map_filter_snd (due now)), map_map. reflexivity.
  - intros i cmd. rewrite in_map_iff. split.
    + intros ([i' cy] & Q & I). cbn in Q. inversion Q; subst. unfold dl in I. apply filter_In in I as [I D]. cbn in D. unfold due in D.
      assert (PD : pending a i (cy_close cy) (cy_expire cy)) by (apply P; eauto). assert (LI := pending_lt _ _ _ _ PD). destruct PD as [O T].
      exists (cy_expire cy), now. split; [apply opens_app; auto|]. split; [lia|]. split; auto. split; [lia|].
      intros k n K Q'. apply (T k n); [lia|]. rewrite nth_error_app1 in Q' by lia. auto.
    + intros (at_ & now' & O & LI & Q & A & T). assert (now' = now) by congruence. subst now'.
      apply (opens_app a (Tick now :: b)) in O; [|lia]. assert (PD : pending a i cmd at_).
      { split; auto. intros k n K Q'. assert (K2 : (k < length a)%nat) by (apply nth_error_Some; congruence). apply (T k n); [lia|]. rewrite nth_error_app1; auto. }
      apply P in PD as (cy & I & C & X). exists (i, cy). split; [cbn; subst; auto|]. unfold dl. apply filter_In. split; auto. cbn. unfold due. lia.
Qed.
Theorem open_runs : forall evs log fin, cruns [] evs = Ok (log, fin) ->
  forall j cc d num now, nth_error evs j = Some (Open cc d num now) ->
  exists ran, nth_error log j = Some ran /\
    ((exists o, build_cmd d (cc_open cc) (cc_timer cc) = Ok (Some o) /\ ran = [o]) \/
     (build_cmd d (cc_open cc) (cc_timer cc) = Ok None /\ ran = [])).
Proof.
  intros evs log fin E j cc d num now N. destruct (nth_error_split evs j N) as (a & b & -> & LJ).
  destruct (cruns_app _ _ _ _ _ E) as (la & mid & lb & E1 & E2 & -> & L).
  rewrite cruns_cons in E2. cbn [cstep] in E2. unfold cmd_cycle_open in E2.
  assert (NTH : forall ran lg, nth_error (la ++ ran :: lg) j = Some ran).
  { intros. rewrite nth_error_app2 by lia. replace (j - length la)%nat with 0%nat by lia. reflexivity. }
  destruct (build_cmd d (cc_open cc) (cc_timer cc)) as [[o|]|]; [| |discriminate].
  - destruct (cc_do_close cc).
    + destruct (build_cmd d (cc_close cc) (cc_timer cc)) as [[cl|]|]; [| |discriminate].
      * destruct (cruns _ b) as [[lg f]|]; [|discriminate]. inversion E2; subst. eexists. split; [apply NTH|]. left. eauto.
      * destruct (cruns _ b) as [[lg f]|]; [|discriminate]. inversion E2; subst. eexists. split; [apply NTH|]. left. eauto.
    + destruct (cruns _ b) as [[lg f]|]; [|discriminate]. inversion E2; subst. eexists. split; [apply NTH|]. left. eauto.
  - destruct (cruns _ b) as [[lg f]|]; [|discriminate]. inversion E2; subst. eexists. split; [apply NTH|]. right. auto.
Qed.
