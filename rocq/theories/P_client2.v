(** Proofs about the client: what its options make of the message. *)
From Verif Require Import Bytes M_base64 M_util M_message M_codec M_cipher M_ctx M_accfile M_client S_base64 S_text S_codec S_cipher S_ctx S_conf S_cycle S_client
  P_bytes P_base64 P_util P_util2 P_message P_codec P_cycle P_ctx P_ctx2 P_ctx3 P_ctx4 P_ctx5 P_ctx6 P_client.
From Coq Require Import Init.Byte List ZArith Bool Lia.
Import ListNotations.
Open Scope Z_scope.

Local Ltac ands := repeat match goal with |- _ /\ _ => split end.

(** ** Random ports *)
Lemma port_of_range r : 10000 <= port_of r <= 65534.
Proof. unfold port_of. pose proof (Z.mod_pos_bound (decimal (ztake 5 r)) 55535). lia. Qed.
Lemma digits_ztake n r : all_digits r -> all_digits (ztake n r).
Proof. intro A. unfold ztake. apply Forall_forall. intros x X. apply In_firstn in X. unfold all_digits in A. rewrite Forall_forall in A. auto. Qed.
Lemma get_rand_port_live H v i c r : c_rand c = Some r -> all_digits r ->
  get_rand_port H v i (Live c) =
    Ok (if v_seed v i then (Some (port_of r), Live (set_c_dirty true (set_c_rand (Some (rand_digits (v_rand v i))) c))) else (None, Live c)).
Proof.
  intros R A. unfold get_rand_port, fko_get_rand_value, getter. rewrite R. unfold MAX_PORT_STR_LEN, MIN_HIGH_PORT, MAX_PORT.
  assert (A5 := digits_ztake 5 r A). assert (L5 : zlen (ztake 5 r) <= 5) by (unfold ztake, zlen; rewrite firstn_length; lia).
  assert (B := decimal_bound _ A5).
  assert (B5 : 0 <= decimal (ztake 5 r) < 100000).
  { split; [lia|]. apply (Z.lt_le_trans _ (10 ^ zlen (ztake 5 r))); [lia|]. change 100000 with (10 ^ 5). apply Z.pow_le_mono_r; lia. }
  rewrite strtol_wrapper_digits by (auto; lia). cbn [strtol_ok negb].
  unfold run_call, api. cbn [on_live]. unfold gen_rand_value. destruct (v_seed v i); cbn [ok]; [|reflexivity].
  rewrite Z.rem_mod_nonneg by lia. reflexivity.
Qed.

(** ** The type *)
Definition eff (o : options) : Z := if o_timeout o >=? 0 then o_timeout o else 0.
Lemma type_norm o : o_command o = [] ->
  timeout_type (if o_nat_local o || given (o_nat_access o) then nat_typed (message_type o) (eff o) else message_type o) (eff o) = type_wanted o.
Proof.
  intro C. unfold message_type, type_wanted, eff. rewrite C. cbn [given].
  destruct (Z.ltb_spec 0 (o_timeout o)) as [P|P], (Z.geb_spec (o_timeout o) 0) as [Q|Q]; try lia.
  - assert (G : o_timeout o >? 0 = true) by lia. destruct (o_nat_local o); cbn [orb]; unfold nat_typed, timeout_type; rewrite ?G; [reflexivity|].
    destruct (o_nat_access o); reflexivity.
  - assert (o_timeout o = 0) as -> by lia. destruct (o_nat_local o); [reflexivity|]. destruct (o_nat_access o); reflexivity.
  - destruct (o_nat_local o); [reflexivity|]. destruct (o_nat_access o); reflexivity.
Qed.

(** ** No access text *)
Lemma last_split (c : byte) a b a' b' : a ++ c :: b = a' ++ c :: b' -> ~ In c b -> ~ In c b' -> b = b'.
Proof.
  revert a'. induction a as [|x a IH]; intros [|x' a'] E N N'; cbn in E.
  - congruence.
  - injection E as _ E. exfalso. apply N. rewrite E. apply in_app_iff. right; left; auto.
  - injection E as _ E. exfalso. apply N'. rewrite <- E. apply in_app_iff. right; left; auto.
  - injection E as _ E. eauto.
Qed.
Lemma join_last ip items : items <> [] -> exists a it, join [","%byte] (ip :: items) = a ++ it /\ In it items.
Proof.
  revert ip. induction items as [|x items IH]; intros ip N; [contradiction|].
  destruct items as [|y items]; [exists (ip ++ [","%byte]), x; split; [cbn; rewrite <- app_assoc; reflexivity|left; auto]|].
  destruct (IH x ltac:(discriminate)) as (a & it & E & I). exists (ip ++ [","%byte] ++ a), it.
  change (join [","%byte] (ip :: x :: y :: items)) with (ip ++ [","%byte] ++ join [","%byte] (x :: y :: items)). rewrite E, <- !app_assoc. split; auto. right; auto.
Qed.
Lemma none_refused ip : ~ access_request (ip ++ $ ",none/0").
Proof.
  intros (i & items & a & b & c & d & E & NE & _ & _ & F). destruct (join_last i items NE) as (pre & it & EJ & I).
  rewrite Forall_forall in F. destruct (F it I) as (p & ds & _ & -> & _ & D & R). rewrite EJ in E.
  assert (X : (pre ++ p) ++ "/"%byte :: ds = (ip ++ $ ",none") ++ "/"%byte :: $ "0").
  { rewrite <- !app_assoc. cbn [app]. symmetry. etransitivity; [|exact E]. reflexivity. }
  apply last_split in X; [subst; destruct R as [R _]; exact (R eq_refl)| |vm_compute; intuition discriminate].
  intro J. unfold all_digits in D. rewrite Forall_forall in D. destruct (D _ J) as [Y _]. exact (Y eq_refl).
Qed.

(** ** The whole message *)
Record built (v : world) (o : options) (r u : bytes) (tm ty : Z) (msg : bytes) (na : option bytes) (to dt mo : Z) : Prop := {
  bu_rand : r = rand_digits (v_rand v (if match o_command o with [] => o_nat_rand o | _ => false end then 1%nat else 0%nat));
  bu_user : user_wanted v o u /\ username_text u /\ zlen u <= 63;
  bu_time : time_wanted v o tm /\ 0 <= tm;
  bu_type : ty = if o_nat_local o || given (o_nat_access o) then nat_typed (message_type o) to else message_type o;
  bu_msg : exists t, msg = o_ip o ++ [","%byte] ++ t /\ no_nul msg /\ zlen msg < 256 /\
     match o_command o with
     | [] => access_wanted o t /\ access_request msg
     | _ => t = o_command o /\ command_request msg
     end;
  bu_port : o_command o = [] -> o_nat_rand o = true -> exists proto ds, msg = proto ++ ["/"%byte] ++ ds /\ writes ds (port_of (rand_digits (v_rand v 0)));
  bu_nat : match na with
           | Some n => nat_asked o /\ nat_wanted o n /\ nat_request n /\ no_nul n /\ 1 <= zlen n < 128
           | None => ~ nat_asked o end;
  bu_timeout : to = eff o;
  bu_digest : dt = or_default (o_digest o) 3 /\ 1 <= dt <= 7;
  bu_mode : mo = or_default (o_mode o) 2 }.


Lemma digits_no_nul s : all_digits s -> no_nul s.
Proof. intros A I. unfold all_digits in A. rewrite Forall_forall in A. destruct (A _ I) as [X _]. exact (X eq_refl). Qed.
Lemma nat_wanted_no_nul o t : options_ok o -> nat_wanted o t -> no_nul t.
Proof.
  intros OK (host & p & ds & -> & W & C). apply no_nul_app. split.
  - destruct C as [(_ & -> & _)|(_ & _ & _ & [(<- & _)|(sep & s & _ & E & _)])]; [apply OK|apply OK|].
    pose proof (ok_nat o OK) as [N _]. rewrite E in N. apply no_nul_app in N. tauto.
  - apply no_nul_app. split; [apply no_nul_cons; split; [discriminate|apply no_nul_nil]|]. apply digits_no_nul, W.
Qed.
Lemma access_buf_no_nul o n t : options_ok o -> access_buf o n = Ok (Some t) -> no_nul t.
Proof.
  intros OK E. assert (N1 : no_nul (o_ip o)) by apply OK. assert (N2 : no_nul (o_access o)) by apply OK.
  assert (NC : no_nul ($ ",")) by (apply no_nul_cons; split; [discriminate|apply no_nul_nil]).
  unfold access_buf in E. destruct (_ && _).
  - destruct (strchr _ _) as [rest|]; [|discriminate]. cbv zeta in E. destruct (_ >? LINE_LEN); [discriminate|]. destruct (match strchr _ _ with Some _ => _ | None => _ end); [discriminate|].
    destruct (_ >? LINE_LEN); [discriminate|]. injection E as <-. apply no_nul_app. split; [|apply no_nul_ztake, dec_no_nul].
    apply no_nul_app. split; [|apply no_nul_ztake; auto]. apply no_nul_ztake, no_nul_app. auto.
  - injection E as <-. apply no_nul_ztake. apply no_nul_app. split; [exact N1|]. apply (proj2 (no_nul_app ($ ",") (o_access o))). auto.
Qed.
Lemma app_split_comma (a b a' b' : bytes) : a ++ [","%byte] ++ b = a' ++ [","%byte] ++ b' -> ~ In ","%byte a -> ~ In ","%byte a' -> a = a' /\ b = b'.
Proof.
  revert a'. induction a as [|x a IH]; intros [|x' a'] E N N'; cbn in E.
  - injection E. auto.
  - injection E as <- _. exfalso. apply N'. left; auto.
  - injection E as -> _. exfalso. apply N. left; auto.
  - injection E as -> E. destruct (IH a' E) as [-> ->]; auto; intro; [apply N|apply N']; right; auto.
Qed.

Lemma build_ok H v o h : options_ok o -> world_ok v -> (o_nat_rand o = true -> v_seed v 1%nat = true) -> build H v o = Ok (Some h) ->
  exists r u tm ty msg na to dt mo, h = Live (mkC r u tm ty (Some msg) na to dt mo) /\ built v o r u tm ty msg na to dt mo.
Proof.
  intros OK WO SEED E. unfold build in E. destruct (fko_new _ _ _ _) as [e h0] eqn:N. destruct (ok e) eqn:OE; cbn [negb] in E; [|discriminate].
  assert (e = FKO_SUCCESS) by (destruct e; cbn in OE; congruence). subst e.
  destruct (new_live _ _ _ _ _ N) as (c & u & -> & SD & UE & UV & NOW & ->). clear N OE.
  change (mkCtx _ _ _ _ _ _ _ _ _ _ _ _ _ _ _ _ _ _ _ _ _ _ _ _ _) with (mkC (rand_digits (v_rand v 0)) u (v_now v) 1 None None 0 3 2) in E.
  set (r0 := rand_digits (v_rand v 0)) in *.
  assert (D0 : all_digits r0) by (apply rand_value_digits; intro i; pose proof (wo_rand v WO 0%nat i); lia).
  assert (UL : zlen u <= 63) by (rewrite UE; apply username_setter).
  assert (UT : username_text u) by (apply validate_username_iff; [lia|auto]).
  (* timeout and type *)
  apply sbind_ok in E as (h1 & E1 & E).
  assert (S1 : exists ty, h1 = Live (mkC r0 u (v_now v) ty None None (eff o) 3 2)).
  { pose proof (ok_timeout o OK) as TR. unfold eff. apply must_if_ok in E1 as [(B & E1)|(B & ->)]; rewrite B; [|eauto]. apply stage_timeout in E1; [eauto|lia]. }
  destruct S1 as (ty0 & ->). clear E1.
  apply sbind_ok in E as (h2 & E2 & E). apply must_ok, stage_type in E2. subst h2.
  (* time *)
  apply sbind_ok in E as (h3 & E3 & E). apply sbind_ok in E as (h4 & E4 & E).
  assert (S2 : exists tm, h4 = Live (mkC r0 u tm (message_type o) None None (eff o) 3 2) /\ time_wanted v o tm /\ 0 <= tm).
  { pose proof (ok_offset o OK) as [OP OM]. apply must_if_ok in E3 as [(B & E3)|(B & ->)].
    - apply stage_time in E3 as [T3 ->]. apply must_if_ok in E4 as [(B' & E4)|(B' & ->)].
      + apply stage_time in E4 as [T4 ->]. eexists. split; [reflexivity|]. split; [left|]; lia.
      + eexists. split; [reflexivity|]. split; [right|]; lia.
    - apply must_if_ok in E4 as [(B' & E4)|(B' & ->)].
      + apply stage_time in E4 as [T4 ->]. eexists. split; [reflexivity|]. split; [left|]; lia.
      + eexists. split; [reflexivity|]. split; [right|]; lia. }
  destruct S2 as (tm & -> & TW & TP). clear E3 E4.
  (* message *)
  apply sbind_ok in E as ([t h5] & E5 & E). cbv iota in E. apply sbind_ok in E as (h6 & E6 & E). apply must_ok in E6.
  assert (NIP : no_nul (o_ip o)) by apply OK.
  assert (NCOM : no_nul ($ ",")) by (apply no_nul_cons; split; [discriminate|apply no_nul_nil]).
  assert (S3 : exists r, h5 = Live (mkC r u tm (message_type o) None None (eff o) 3 2) /\
     r = rand_digits (v_rand v (if match o_command o with [] => o_nat_rand o | _ => false end then 1%nat else 0%nat)) /\ no_nul t /\
     match o_command o with
     | [] => if given (o_access o) then access_buf o (if o_nat_rand o then port_of r0 else o_nat_port o) = Ok (Some t) else t = M_client.cut (o_ip o ++ $ ",none/0")
     | _ => t = M_client.cut (o_ip o ++ $ "," ++ o_command o) end).
  { destruct (o_command o) as [|x cmd] eqn:EC; cbn [given] in E5.
    - unfold set_access_buf in E5. destruct (given (o_access o)).
      + destruct (o_nat_rand o) eqn:NR.
        * rewrite (get_rand_port_live H v 1 _ r0) in E5 by (auto; reflexivity). rewrite (SEED eq_refl) in E5.
          apply sbind_ok in E5 as (t' & E5 & E5'). injection E5' as -> <-.
          eexists. split; [reflexivity|]. split; [reflexivity|]. split; [eapply access_buf_no_nul; eauto|exact E5].
        * apply sbind_ok in E5 as (t' & E5 & E5'). injection E5' as -> <-.
          eexists. split; [reflexivity|]. split; [reflexivity|]. split; [eapply access_buf_no_nul; eauto|exact E5].
      + injection E5 as <- <-. exfalso. apply stage_msg in E6 as (L & AR & _).
        * assert (MT : message_type o =? 0 = false).
          { unfold message_type. rewrite EC. cbn [given]. destruct (o_nat_local o), (o_timeout o >=? 0); cbn; try reflexivity; destruct (given (o_nat_access o)); reflexivity. }
          rewrite MT in AR. rewrite (cut_lt _ 256) in AR by (auto; lia). exact (none_refused _ AR).
        * apply no_nul_ztake, no_nul_app. split; auto. vm_compute. intuition discriminate.
    - injection E5 as <- <-. eexists. split; [reflexivity|]. split; [reflexivity|]. split; [|reflexivity].
      apply no_nul_ztake, no_nul_app. split; auto. apply (proj2 (no_nul_app ($ ",") (x :: cmd))). split; auto. rewrite <- EC. apply OK. }
  destruct S3 as (r & -> & RE & NT & TX). clear E5.
  apply stage_msg in E6 as (TL & TR & ->); auto.
  assert (S4 : exists a, t = o_ip o ++ [","%byte] ++ a /\
     match o_command o with [] => access_wanted o a /\ access_request t | _ => a = o_command o /\ command_request t end /\
     (o_command o = [] -> o_nat_rand o = true -> exists proto ds, t = proto ++ ["/"%byte] ++ ds /\ writes ds (port_of r0))).
  { destruct (o_command o) as [|x cmd] eqn:EC.
    - assert (MT : message_type o =? 0 = false).
      { unfold message_type. rewrite EC. cbn [given]. destruct (o_nat_local o), (o_timeout o >=? 0); cbn; try reflexivity; destruct (given (o_nat_access o)); reflexivity. }
      rewrite MT in TR. destruct (given (o_access o)).
      2: { exfalso. subst t. rewrite (cut_lt _ 256) in TR by (auto; lia). exact (none_refused _ TR). }
      destruct (access_buf_ok o _ t OK TX TL) as (a & TE & A). exists a. split; auto.
      pose proof (port_of_range r0) as PR. pose proof (ok_port o OK) as OPR.
      split; [split; auto|].
      + destruct (o_nat_rand o) eqn:NR.
        * destruct A as [(_ & p & q & EA & NI & ->)|(A & _)]; [|exfalso; apply A; lia].
          exists (Some (port_of r0)). split; [constructor; auto|]. exists p, q, (dec (port_of r0)). ands; auto. apply dec_writes. lia.
        * destruct A as [(P & p & q & EA & NI & ->)|(A & ->)].
          -- exists (Some (o_nat_port o)). split; [apply pc_given; auto; lia|]. exists p, q, (dec (o_nat_port o)). ands; auto. apply dec_writes. lia.
          -- exists None. split; [apply pc_none; auto; lia|reflexivity].
      + intros _ NR. rewrite NR in A. destruct A as [(_ & p & q & EA & NI & ->)|(A & _)]; [|exfalso; apply A; lia].
        exists (o_ip o ++ [","%byte] ++ p), (dec (port_of r0)). split; [rewrite TE, <- !app_assoc; reflexivity|apply dec_writes; lia].
    - assert (MT : message_type o =? 0 = true) by (unfold message_type; rewrite EC; reflexivity). rewrite MT in TR.
      subst t. assert (CE : M_client.cut (o_ip o ++ $ "," ++ x :: cmd) = o_ip o ++ $ "," ++ x :: cmd) by (apply (cut_lt _ 256); [exact TL|lia]). rewrite CE in TR |- *. exists (x :: cmd). split; [reflexivity|]. split; [split; [reflexivity|exact TR]|discriminate]. }
  destruct S4 as (a & TE & TW4 & TP4).
  (* nat *)
  apply sbind_ok in E as (h7 & E7 & E).
  assert (S5 : exists na ty, h7 = Live (mkC r u tm ty (Some t) na (eff o) 3 2) /\
     ty = (if o_nat_local o || given (o_nat_access o) then nat_typed (message_type o) (eff o) else message_type o) /\
     match na with
     | Some n => nat_asked o /\ nat_wanted o n /\ nat_request n /\ no_nul n /\ 1 <= zlen n < 128
     | None => ~ nat_asked o end).
  { destruct (o_nat_local o || given (o_nat_access o)) eqn:B.
    - assert (NA : nat_asked o). { apply orb_true_iff in B as [B|B]; [left; auto|right]. destruct (o_nat_access o); discriminate. }
      apply sbind_ok in E7 as (n & E7 & E7'). apply must_ok, stage_nat in E7' as (NL & NR & ->).
      assert (NW := nat_text_ok o n OK E7 ltac:(lia) NA).
      exists (Some n). eexists. split; [reflexivity|]. split; [reflexivity|]. ands; auto; try lia. eapply nat_wanted_no_nul; eauto.
    - injection E7 as <-. exists None. eexists. split; [reflexivity|]. split; [reflexivity|].
      apply orb_false_iff in B as [B1 B2]. intros [X|X]; [congruence|]. destruct (o_nat_access o); [contradiction|discriminate]. }
  destruct S5 as (na & ty & -> & TYE & NW). clear E7.
  (* user *)
  apply sbind_ok in E as (h8 & E8 & E).
  assert (S6 : exists u', h8 = Live (mkC r u' tm ty (Some t) na (eff o) 3 2) /\ user_wanted v o u' /\ username_text u' /\ zlen u' <= 63).
  { pose proof (ok_user o OK) as [_ OUL]. destruct (o_user o) as [|x us] eqn:EU; cbn [given] in E8.
    - cbn [must_if] in E8. injection E8 as <-. exists u. ands; auto. right. split; auto. rewrite UE.
      unfold truncate_username, strnlen, MAX_SPA_USERNAME_SIZE. destruct (Z.min (zlen (login_name (v_login v))) 64 =? 64) eqn:Q; [reflexivity|]. rewrite P_bytes.ztake_all; [reflexivity|lia].
    - cbn [must_if] in E8. apply must_ok, stage_user in E8 as (UT' & ->); [|lia]. exists (x :: us). ands; auto; [|lia]. left. rewrite EU. split; [discriminate|auto]. }
  destruct S6 as (u' & -> & UW & UT' & UL'). clear E8.
  (* mode and digest *)
  apply sbind_ok in E as (h9 & E9 & E).
  assert (S7 : h9 = Live (mkC r u' tm ty (Some t) na (eff o) 3 (or_default (o_mode o) 2))).
  { unfold or_default. apply must_if_ok in E9 as [(B & E9)|(B & ->)].
    - apply stage_mode in E9. replace (o_mode o =? 0) with false by lia. exact E9.
    - replace (o_mode o =? 0) with true by lia. reflexivity. }
  subst h9. clear E9.
  assert (S8 : h = Live (mkC r u' tm ty (Some t) na (eff o) (or_default (o_digest o) 3) (or_default (o_mode o) 2)) /\ 1 <= or_default (o_digest o) 3 <= 7).
  { unfold or_default at 1 3 4. apply must_if_ok in E as [(B & E)|(B & ->)].
    - apply stage_digest in E as [R E]. replace (o_digest o =? 0) with false by lia. auto.
    - replace (o_digest o =? 0) with true by lia. split; [reflexivity|lia]. }
  destruct S8 as [-> DR].
  exists r, u', tm, ty, t, na, (eff o), (or_default (o_digest o) 3), (or_default (o_mode o) 2). split; [reflexivity|].
  split; auto. exists a. ands; auto.
Qed.
