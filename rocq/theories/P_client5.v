(** Proofs about the client: the packet shows what the options ask for. *)
From Verif Require Import Bytes M_accfile M_base64 M_util M_message M_codec M_cipher M_ctx M_client S_base64 S_text S_codec S_cipher S_ctx S_conf S_cycle S_client
  P_bytes P_base64 P_util P_util2 P_message P_codec P_cycle P_ctx P_ctx2 P_ctx3 P_ctx4 P_ctx5 P_ctx6 P_client P_client2 P_client3 P_client4.
From Coq Require Import Init.Byte List ZArith Bool Lia.
Import ListNotations.
Open Scope Z_scope.

Local Ltac ands := repeat match goal with |- _ /\ _ => split end.

Lemma final_no_hmac H k salt hk hk' c : 0 <= c_timeout c < 2147483648 -> c_htype c = 0 -> spa_data_final H k hk salt c = spa_data_final H k hk' salt c.
Proof.
  intros T Z0. unfold spa_data_final. destruct (encrypt_spa_data H k salt c) as [[e c1]|] eqn:E; [|reflexivity].
  assert (A : c_htype c1 = 0).
  { pose proof (encrypt_frame _ _ _ _ _ _ T E AHmacType ltac:(cbn; intuition discriminate)) as X. cbn in X. congruence. }
  rewrite A. rewrite andb_false_r. reflexivity.
Qed.

(** The message that is meant *)
Definition clean_timeout (o : options) : Z := if given (o_command o) then 0 else eff o.
Lemma eff_pos o : (0 <? o_timeout o) = (0 <? eff o).
Proof. unfold eff. destruct (Z.geb_spec (o_timeout o) 0), (Z.ltb_spec 0 (o_timeout o)); symmetry; lia. Qed.
Lemma timeout_meant o : (if (0 <? o_timeout o) && match o_command o with [] => true | _ => false end then o_timeout o else 0) = clean_timeout o.
Proof.
  unfold clean_timeout, eff, given. destruct (o_command o); cbn [andb]; rewrite ?andb_true_r, ?andb_false_r; [|reflexivity].
  destruct (Z.geb_spec (o_timeout o) 0), (Z.ltb_spec 0 (o_timeout o)); try reflexivity; lia.
Qed.

Lemma text_meant o r u tm v msg na ty : (o_command o <> [] -> ~ nat_asked o) ->
  ty = (if o_nat_local o || given (o_nat_access o) then nat_typed (message_type o) (eff o) else message_type o) ->
  encode_text (mkSpa r u tm v ty msg na None (eff o)) = encode_text (mkSpa r u tm v (type_wanted o) msg na None (clean_timeout o)).
Proof.
  intros CN TY. unfold clean_timeout. destruct (o_command o) as [|c cmd] eqn:C; cbn [given].
  - rewrite <- encode_text_type. subst ty. rewrite type_norm by exact C. reflexivity.
  - assert (NN : o_nat_local o || given (o_nat_access o) = false).
    { destruct (_ || _) eqn:B; auto. exfalso. apply CN; [discriminate|]. unfold nat_asked. apply orb_true_iff in B as [B|B]; auto. right. destruct (o_nat_access o); [discriminate B|discriminate]. }
    rewrite NN in TY. unfold message_type in TY. rewrite C in TY. cbn [given] in TY. subst ty. unfold type_wanted. rewrite C.
    unfold encode_text. cbn [s_rand s_user s_time s_version s_type s_msg s_nat s_auth s_timeout].
    unfold timeout_type, FKO_COMMAND_MSG, FKO_ACCESS_MSG, FKO_NAT_ACCESS_MSG, FKO_LOCAL_NAT_ACCESS_MSG, FKO_CLIENT_TIMEOUT_ACCESS_MSG, FKO_CLIENT_TIMEOUT_NAT_ACCESS_MSG, FKO_CLIENT_TIMEOUT_LOCAL_NAT_ACCESS_MSG.
    cbn [Z.eqb]. destruct (eff o >? 0); cbn [Z.gtb Z.compare Z.eqb andb negb]; reflexivity.
Qed.

Lemma type_wanted_range o : 0 <= type_wanted o <= 6 /\ (type_wanted o = 0 <-> o_command o <> []) /\
  (o_command o = [] -> (nat_type (type_wanted o) <-> nat_asked o)) /\ (clean_timeout o > 0 <-> timed_type (type_wanted o)).
Proof.
  unfold type_wanted, nat_type, timed_type, nat_asked, clean_timeout. pose proof (eff_pos o) as EP. rewrite EP.
  destruct (o_command o) as [|c r]; cbn [given].
  - destruct (o_nat_local o), (o_nat_access o), (Z.ltb_spec 0 (eff o)); (ands; [lia|lia|intuition congruence || lia| |lia]); (intuition (try discriminate; try congruence; try lia)).
  - ands; try lia; try (intuition congruence).
Qed.

Lemma hash_known H t : 1 <= t <= 7 -> exists h, hash_number H t h.
Proof. intro R. destruct (hash_of_range H t R) as (h & E). exists h. apply hash_of_number. exact E. Qed.

Lemma plain_len H dt h m : hashes_ok H -> sendable m -> hash_number H dt h -> s_auth m = None ->
  exists pt, plaintext_of H dt m = Some pt /\ plain_length dt m (zlen pt).
Proof.
  intros OK SD HN NA. pose proof (encode_text_body m SD) as [ET _].
  destruct (codec_round_trip H dt h m OK HN SD) as (pt & dg & t' & PT & _). exists pt. split; auto.
  unfold plaintext_of in PT. apply obind_inv in PT as (t & ES & PT). apply obind_inv in PT as (h' & HH & PT). injection PT as <-.
  apply hash_of_number in HH.
  assert (TB : t = enc_body m).
  { unfold encode_spa in ES. apply obind_inv in ES as (x1 & G1 & E). apply obind_inv in E as (x2 & G2 & E).
    apply obind_inv in E as (t2 & T2 & E). apply obind_inv in E as (x3 & G3 & E). injection E as <-. congruence. }
  subst t. destruct SD as [[R1 _] _ TI _ TY _ _ _ [TO _]].
  exists (dec (s_time m)), (dec (s_timeout m)). split; [apply dec_writes; lia|]. split; [apply dec_writes; lia|].
  rewrite zlen_app, zlen_cons, (digest_b64_len H dt) by auto.
  assert (HZ : (4 * hash_len dt + 2) / 3 = b64_size (hash_size dt)) by (destruct HH; reflexivity). rewrite HZ.
  unfold enc_body, enc_tail. rewrite NA. repeat (rewrite !zlen_cons || rewrite !zlen_app). rewrite !enc64_len.
  rewrite (dec_small (s_type m)) by lia. unfold b64_size.
  rewrite Z.gtb_ltb. destruct (s_nat m) as [n|], (0 <? s_timeout m); repeat (rewrite !zlen_cons || rewrite !zlen_app || rewrite enc64_len); change (zlen []) with 0; lia.
Qed.
Lemma client_packet H v o h : hashes_ok H -> options_ok o -> world_ok v -> (o_nat_rand o = true -> v_seed v 1%nat = true) ->
  (o_command o <> [] -> ~ nat_asked o) -> make_packet H v o = Ok (Some h) ->
  exists m k k' hk, wants v o m /\ key_from (o_server o) (o_key o) k /\ key_used (or_default (o_mode o) 2) k k' /\
    match o_hmac o with
    | None => hk = None
    | Some s => exists x, hk = Some x /\ key_from (o_server o) s x /\ x <> k
    end /\
    (exists c, h = Live c /\ c_rand c = Some (s_rand m)) /\
    forall md, fits (or_default (o_digest o) 3) m -> api_mode (or_default (o_mode o) 2) md ->
      match hk with None => True | Some x => 1 <= zlen x /\ 1 <= o_hmac_type o <= 7 end ->
    exists pkt h2, fko_get_spa_data h = Ok (FKO_SUCCESS, Some pkt) /\
      fko_new_with_data H (Some pkt) (Some k') (or_default (o_mode o) 2) hk (match hk with None => 0 | Some _ => o_hmac_type o end) = Ok (FKO_SUCCESS, h2) /\
      shows h2 m /\ sendable m /\
      exists pt mac, plaintext_of H (or_default (o_digest o) 3) m = Some pt /\ zlen pt <= 271 /\ plain_length (or_default (o_digest o) 3) m (zlen pt) /\
        pkt = zdrop 10 (sealed H (or_default (o_mode o) 2) k' (v_salt v) pt ++ mac) /\
        mac_part H (match hk with None => 0 | Some _ => o_hmac_type o end) hk (sealed H (or_default (o_mode o) 2) k' (v_salt v) pt) mac.
Proof.
  intros HOK OK WO SEED CN E. unfold make_packet in E. apply sbind_ok in E as (h0 & E0 & E).
  destruct (build_ok H v o h0 OK WO SEED E0) as (r & u & tm & ty & msg & na & to & dt & mo & -> & B). clear E0.
  destruct B as [B1 (B2 & B2a & B2b) (B3 & B3a) B4 (t & B5 & B5n & B5l & B5r) _ B7 -> (-> & B9) ->].
  unfold seal in E. apply sbind_ok in E as ([[k hk] h1] & EK & E).
  (* the keys *)
  unfold get_keys in EK. apply sbind_ok in EK as (k0 & EK0 & EK).
  pose proof (get_key_from _ _ _ (ok_server o OK) (ok_key o OK) EK0) as KF.
  assert (KEYS : k0 = k /\ exists ht, h1 = Live (set_c_htype ht (mkC r u tm ty (Some msg) na (eff o) (or_default (o_digest o) 3) (or_default (o_mode o) 2))) /\
    match o_hmac o with None => hk = [] /\ ht = 0 | Some s => key_from (o_server o) s hk /\ zlen hk <= 128 /\ hk <> k /\ ht = o_hmac_type o end).
  { pose proof (ok_hmac o OK) as OH. destruct (o_hmac o) as [s|].
    - apply sbind_ok in EK as (hk0 & EH & EK). destruct (bseq hk0 k0) eqn:BS; [discriminate|]. apply sbind_ok in EK as (h2 & EM & EK).
      injection EK as -> -> ->. split; auto. exists (o_hmac_type o).
      destruct (get_hmac_key_from _ _ _ (ok_server o OK) OH EH) as (KH & LH). ands; auto.
      + apply must_ok in EM. destruct (run_call_live' _ _ _ _ _ EM) as (c' & -> & F). cbn [on_live] in F. injection F as F.
        unfold set_hmac_type in F. destruct ((o_hmac_type o <? 0) || (o_hmac_type o >=? FKO_LAST_HMAC_MODE)); [discriminate|]. injection F as <-. reflexivity.
      + intros ->. rewrite (proj2 (bseq_eq k k) eq_refl) in BS. discriminate.
    - injection EK as -> -> <-. split; auto. exists 0. auto. }
  destruct KEYS as (-> & ht & -> & KH). clear EK EK0.
  set (k' := if (o_mode o =? FKO_ENC_MODE_CBC_LEGACY_IV) && (zlen k >? 16) then ztake 16 k else k) in *.
  apply must_ok in E. destruct (run_call_live' _ _ _ _ _ E) as (c1 & -> & F). clear E. cbn [on_live] in F.
  (* the message *)
  set (m := mkSpa r u tm ($ "3.0.0") (type_wanted o) msg na None (clean_timeout o)).
  exists m, k, k', (match o_hmac o with None => None | Some _ => Some hk end).
  assert (RD : all_digits r /\ zlen r = 16).
  { rewrite B1. apply rand_value_digits. intro i. pose proof (wo_rand v WO (if match o_command o with [] => o_nat_rand o | _ => false end then 1%nat else 0%nat) i). lia. }
  ands.
  - split; cbn [m s_rand s_user s_time s_version s_type s_msg s_nat s_auth s_timeout]; auto.
    + exists t. ands; auto; intro C; [|rewrite C in B5r; apply B5r]. destruct (o_command o); [contradiction|apply B5r].
    + destruct na; [split|]; apply B7.
    + symmetry. apply timeout_meant.
  - exact KF.
  - unfold key_used, k', FKO_ENC_MODE_CBC_LEGACY_IV. unfold or_default. destruct (Z.eqb_spec (o_mode o) 0) as [->|]; [reflexivity|].
    destruct (o_mode o =? 8); cbn [andb]; [|reflexivity]. destruct (Z.gtb_spec (zlen k) 16); [reflexivity|]. symmetry. apply P_bytes.ztake_all. lia.
  - destruct (o_hmac o) as [s|]; [|reflexivity]. exists hk. tauto.
  - exists c1. split; [reflexivity|].
    assert (TE : 0 <= eff o < 2147483648) by (pose proof (ok_timeout o OK); unfold eff; destruct (Z.geb_spec (o_timeout o) 0); lia).
    pose proof (final_frame _ _ _ _ (set_c_htype ht (mkC r u tm ty (Some msg) na (eff o) (or_default (o_digest o) 3) (or_default (o_mode o) 2))) _ _ TE F ARand
      ltac:(cbn; intuition discriminate)) as X.
    unfold get, fetch, fko_get_rand_value, getter in X. cbn [set_c_htype mkC c_rand] in X. destruct (c_rand c1) as [r1|]; cbn in X; [injection X as ->; reflexivity|discriminate].
  - intros md (F1 & F2 & F3 & F4 & F6') A HS.
    cbn [m s_user s_time s_msg s_timeout] in F1, F2, F3, F4.
    destruct (type_wanted_range o) as (T1 & T2 & T3 & T4).
    set (c := set_c_htype ht (mkC r u tm ty (Some msg) na (eff o) (or_default (o_digest o) 3) (or_default (o_mode o) 2))) in *.
    set (c' := set_c_htype ht (mkC r u tm (type_wanted o) (Some msg) na (clean_timeout o) (or_default (o_digest o) 3) (or_default (o_mode o) 2))).
    assert (TE : 0 <= eff o < 2147483648) by (pose proof (ok_timeout o OK); unfold eff; destruct (Z.geb_spec (o_timeout o) 0); lia).
    assert (TC : 0 <= clean_timeout o < 2147483648) by (unfold clean_timeout; destruct (given (o_command o)); lia).
    assert (NR : no_nul r). { intro I. destruct RD as (RD & _). unfold all_digits in RD. rewrite Forall_forall in RD. apply RD in I. vm_compute in I. intuition congruence. }
    assert (IV : inv H c') by (apply inv_dirty; try reflexivity; unfold tmo, c'; cbn [set_c_htype mkC c_timeout c_dtype c_rand c_user]; eauto).
    assert (IVc : inv H c) by (apply inv_dirty; try reflexivity; unfold tmo, c; cbn [set_c_htype mkC c_timeout c_dtype c_rand c_user]; eauto).
    assert (SD : sendable m).
    { split; cbn [m s_rand s_user s_time s_version s_type s_msg s_nat s_auth s_timeout]; auto.
      - split; [apply RD|]. destruct RD as (RD & _). split.
        + unfold all_digits in RD. eapply Forall_impl; [|exact RD]. intros a D. unfold digit in D. unfold printable. lia.
        + intro I. unfold all_digits in RD. rewrite Forall_forall in RD. apply RD in I. unfold digit in I. vm_compute in I. intuition congruence.
      - split; [vm_compute; intuition congruence|]. split; [repeat constructor; vm_compute; intuition congruence|]. cbn [In str]. vm_compute. intuition congruence.
      - split; [|split; auto]. destruct (Z.eqb_spec (type_wanted o) 0) as [TZ|TZ].
        + apply T2 in TZ. destruct (o_command o); [contradiction|]. apply B5r.
        + destruct (o_command o); [apply B5r|]. exfalso. apply TZ, T2. discriminate.
      - assert (CA : nat_asked o -> o_command o = []) by (intro Q; destruct (o_command o) eqn:C; auto; exfalso; apply CN; [discriminate|exact Q]).
        destruct na as [n|].
        + destruct B7 as (Q1 & Q2 & Q3 & Q4 & Q5). ands; auto; [|lia]. apply T3; auto.
        + intro N. destruct (o_command o) eqn:C; [apply B7, T3; auto|]. assert (Z0 : type_wanted o = 0) by (apply T2; discriminate). rewrite Z0 in N. unfold nat_type in N. lia.
      - split; [lia|]. exact T4. }
    destruct (hash_known H _ B9) as (hash & HN).
    destruct (plain_len H _ hash m HOK SD HN eq_refl) as (pt & F5 & PLL). pose proof (F6' _ PLL) as F6.
    assert (HK : hmac_settings H ht (match o_hmac o with None => None | Some _ => Some hk end)).
    { unfold hmac_settings. destruct (o_hmac o) as [s|]; [right|left; tauto]. destruct KH as (_ & L & _ & ->). destruct HS as (HS1 & HS2).
      destruct (hash_known H _ HS2) as (hh & HH). exists hk, hh. ands; auto; lia. }
    assert (SH : shows (Live c') m) by (apply (live_shows c' r u ($ "3.0.0") msg); reflexivity).
    assert (FK : spa_data_final H (Some k') (match o_hmac o with None => None | Some _ => Some hk end) (v_salt v) c = Ok (FKO_SUCCESS, c1)).
    { destruct (o_hmac o) as [s|]; [exact F|]. destruct KH as (-> & ->). rewrite <- F. apply final_no_hmac; [exact TE|reflexivity]. }
    assert (KL : zlen k' <= 32).
    { destruct (final_spec H _ _ _ _ _ HOK IVc FK) as (_ & kx & tx & hx & mx & Q & L & _). injection Q as ->. exact L. }
    destruct (end_to_end_inv H c' m (or_default (o_mode o) 2) md (or_default (o_digest o) 3) hash ht k'
      (match o_hmac o with None => None | Some _ => Some hk end) (v_salt v) pt HOK IV SH SD (proj1 RD) eq_refl eq_refl A eq_refl HN F5 F6 eq_refl HK KL (wo_salt v WO))
      as (h1 & pkt & h2 & R1 & R2 & R3 & R4 & mac & R5 & R6).
    destruct (run_call_live' _ _ _ _ _ R1) as (c1' & -> & F'). cbn [on_live] in F'.
    exists pkt, h2. ands; auto.
    + assert (GE : get_spa_data c1 = get_spa_data c1').
      { apply (same_packet H (Some k') (match o_hmac o with None => None | Some _ => Some hk end) (v_salt v) c c' r u ($ "3.0.0") msg); try reflexivity; auto.
        apply (text_meant o r u tm ($ "3.0.0") msg na ty CN B4). }
      unfold fko_get_spa_data in R2 |- *. rewrite GE. exact R2.
    + replace (match match o_hmac o with None => None | Some _ => Some hk end with None => 0 | Some _ => o_hmac_type o end) with ht; [exact R3|].
      destruct (o_hmac o); [apply KH|apply KH].
    + exists pt, mac. ands; auto.
      replace (match match o_hmac o with None => None | Some _ => Some hk end with None => 0 | Some _ => o_hmac_type o end) with ht; [exact R6|].
      destruct (o_hmac o); [apply KH|apply KH].
Qed.
