(** Proofs about the client: the message it builds. *)
From Verif Require Import Bytes M_base64 M_util M_message M_codec M_cipher M_ctx M_accfile M_client S_base64 S_text S_codec S_cipher S_ctx S_conf S_cycle S_client
  P_bytes P_base64 P_util P_util2 P_message P_codec P_cycle P_ctx P_ctx2 P_ctx3 P_ctx4 P_ctx5 P_ctx6.
From Coq Require Import Init.Byte List ZArith Bool Lia.
Import ListNotations.
Open Scope Z_scope.

Local Ltac ands := repeat match goal with |- _ /\ _ => split end.

(** ** Steps *)
Lemma sbind_ok {A B} (a : step A) (f : A -> step B) y : sbind a f = Ok (Some y) -> exists x, a = Ok (Some x) /\ f x = Ok (Some y).
Proof. destruct a as [[x|]|]; cbn; try discriminate. eauto. Qed.
Lemma must_ok H k h h' : must H k h = Ok (Some h') -> run_call H k h = Ok (FKO_SUCCESS, h').
Proof.
  unfold must. destruct (run_call H k h) as [[e x]|]; [|discriminate]. destruct e; cbn [ok]; try discriminate. intro E. injection E as ->. reflexivity.
Qed.
Lemma must_if_ok H b k h h' : must_if H b k h = Ok (Some h') -> (b = true /\ run_call H k h = Ok (FKO_SUCCESS, h')) \/ (b = false /\ h' = h).
Proof. destruct b; cbn [must_if]; intro E; [left; split; auto; apply must_ok; auto|right]. injection E as ->. auto. Qed.

(** A context under construction *)
Definition mkC (r u : bytes) (t ty : Z) (m na : option bytes) (to dt mo : Z) : ctx :=
  mkCtx (Some r) (Some u) t ty m na None to dt 1 mo 0 (Some FKO_PROTOCOL_VERSION) None 0 None 0 None 0 None 0 None false false true.

Section stages.
Variables (H : hashes) (r u : bytes) (t ty : Z) (m na : option bytes) (to dt mo : Z).
Let h := Live (mkC r u t ty m na to dt mo).
Ltac go := let E := fresh "E" in let F := fresh "F" in let c' := fresh "c'" in
  unfold h; intro E; destruct (run_call_live' _ _ _ _ _ E) as (c' & -> & F); clear E; cbn [on_live] in F; injection F; clear F; intro X.

Lemma stage_timeout n h' : 0 <= n < 2147483648 -> run_call H (CSetTimeout n) h = Ok (FKO_SUCCESS, h') -> h' = Live (mkC r u t (timeout_type ty n) m na n dt mo).
Proof.
  intros R. go. unfold set_client_timeout in X. rewrite i32_small in X by lia. replace (n <? 0) with false in X by lia. inversion X. reflexivity.
Qed.
Lemma stage_type n h' : run_call H (CSetType n) h = Ok (FKO_SUCCESS, h') -> h' = Live (mkC r u t n m na to dt mo).
Proof. go. unfold set_message_type in X. destruct (_ || _); inversion X. reflexivity. Qed.
Lemma stage_time n o h' : run_call H (CSetTime n o) h = Ok (FKO_SUCCESS, h') -> 0 <= n + o /\ h' = Live (mkC r u (n + o) ty m na to dt mo).
Proof. go. unfold set_timestamp in X. destruct (n + o <? 0) eqn:B; inversion X. split; [lia|reflexivity]. Qed.
Lemma stage_msg s h' : no_nul s -> run_call H (CSetMsg (Some s)) h = Ok (FKO_SUCCESS, h') ->
  zlen s < 256 /\ (if ty =? 0 then command_request s else access_request s) /\ h' = Live (mkC r u t ty (Some s) na to dt mo).
Proof.
  intro N. go. unfold set_message in X. destruct (_ =? 0) eqn:B; [discriminate|]. destruct (_ =? MAX_SPA_MESSAGE_SIZE) eqn:B2; [discriminate|].
  unfold strnlen, MAX_SPA_MESSAGE_SIZE in B2. cbn [mkC c_type] in X. unfold FKO_COMMAND_MSG in X.
  assert (zlen s < 256) by lia.
  destruct (ty =? 0).
  - destruct (validate_cmd_msg s) eqn:V; [|discriminate]. apply validate_cmd_msg_iff in V. inversion X. ands; auto. tauto.
  - destruct (validate_access_msg s) eqn:V; [|discriminate]. apply validate_access_msg_iff in V. inversion X. ands; auto. tauto.
Qed.
Definition nat_typed (ty to : Z) : Z :=
  if to >? 0 then if negb (ty =? 6) then 4 else ty else if negb (ty =? 5) && negb (ty =? 6) then 2 else ty.
Lemma stage_nat s h' : run_call H (CSetNat (Some s)) h = Ok (FKO_SUCCESS, h') ->
  1 <= zlen s < 128 /\ nat_request s /\ h' = Live (mkC r u t (nat_typed ty to) m (Some s) to dt mo).
Proof.
  go. unfold set_nat_access in X. destruct (_ =? 0) eqn:B; [discriminate|]. destruct (_ =? MAX_SPA_NAT_ACCESS_SIZE) eqn:B2; [discriminate|].
  unfold strnlen, MAX_SPA_NAT_ACCESS_SIZE in B, B2. pose proof (zlen_nonneg s). destruct (validate_nat_access_msg s) eqn:V; [|discriminate].
  apply validate_nat_access_msg_iff in V as [_ V]. inversion X. ands; auto; try lia.
Qed.
Lemma stage_user l x s h' : run_call H (CSetUser l (Some (x :: s))) h = Ok (FKO_SUCCESS, h') -> zlen (x :: s) <= 63 ->
  username_text (x :: s) /\ h' = Live (mkC r (x :: s) t ty m na to dt mo).
Proof.
  go. unfold set_username in X. cbv zeta iota in X. intros L. destruct (username_setter (x :: s)) as (_ & _ & S & _). rewrite S in X by auto.
  destruct (validate_username (x :: s)) eqn:V; [|discriminate].
  apply validate_username_iff in V; [|lia]. inversion X. split; auto.
Qed.
Lemma stage_mode n h' : run_call H (CSetMode n) h = Ok (FKO_SUCCESS, h') -> h' = Live (mkC r u t ty m na to dt n).
Proof. go. unfold set_encryption_mode in X. destruct (_ || _); inversion X. reflexivity. Qed.
Lemma stage_digest n h' : run_call H (CSetDigestType n) h = Ok (FKO_SUCCESS, h') -> 1 <= n <= 7 /\ h' = Live (mkC r u t ty m na to n mo).
Proof. go. unfold set_digest_type, FKO_LAST_DIGEST_TYPE in X. destruct (_ || _) eqn:B; inversion X. split; [lia|reflexivity]. Qed.
Lemma stage_rand s rnd e h' : run_call H (CGenRand s rnd) h = Ok (e, h') ->
  (ok e = true /\ s = true /\ h' = Live (mkC (rand_digits rnd) u t ty m na to dt mo)) \/ (ok e = false /\ s = false /\ h' = h).
Proof. go. unfold gen_rand_value in X. destruct s; inversion X; subst; [left|right]; auto. Qed.
End stages.

(** ** Texts *)
Lemma cut_short s : zlen s <= 1023 -> M_client.cut s = s.
Proof. intro L. unfold M_client.cut, LINE_LEN. apply P_bytes.ztake_all. lia. Qed.
Lemma cut_lt s n : zlen (M_client.cut s) < n -> n <= 1023 -> M_client.cut s = s.
Proof.
  intros L N. destruct (Z.leb_spec (zlen s) 1023) as [X|X]; [apply cut_short; auto|]. unfold M_client.cut, LINE_LEN in *.
  rewrite zlen_ztake in L by lia. lia.
Qed.
Lemma dec5 n : 0 <= n <= 65536 -> zlen (dec n) <= 5.
Proof. intro R. pose proof (dec_timeout_len n R). lia. Qed.

Lemma access_buf_ok o port t : options_ok o -> access_buf o port = Ok (Some t) -> zlen t < 256 ->
  exists a, t = o_ip o ++ [","%byte] ++ a /\
   ((0 < port <= 65535 /\ exists proto rest, o_access o = proto ++ ["/"%byte] ++ rest /\ ~ In "/"%byte (proto ++ rest) /\ a = proto ++ ["/"%byte] ++ dec port) \/
    (~ (0 < port <= 65535) /\ a = o_access o)).
Proof.
  intros OK E L. unfold access_buf, MAX_PORT in E. destruct ((0 <? port) && (port <=? 65535)) eqn:B.
  - assert (R : 0 < port <= 65535) by lia. pose proof (strchr_split "/"%byte (o_access o)) as SP.
    destruct (strchr "/"%byte (o_access o)) as [rest|]; [|discriminate]. destruct SP as (p & q & EA & -> & NP). cbv zeta in E.
    destruct (_ >? LINE_LEN); [discriminate|].
    pose proof (strchr_split "/"%byte (zdrop 1 ("/"%byte :: q))) as SQ.
    destruct (strchr "/"%byte (zdrop 1 ("/"%byte :: q))) as [r2|]; [discriminate|].
    change (zdrop 1 ("/"%byte :: q)) with q in SQ.
    destruct (_ >? LINE_LEN); [discriminate|]. injection E as E.
    destruct OK as [_ (_ & _ & IPL) _ _ _ _ _ _ _ _ _].
    rewrite cut_short in E by (rewrite zlen_app; change (zlen ($ ",")) with 1; lia).
    replace (zlen (o_access o) - zlen ("/"%byte :: q) + 1) with (zlen (p ++ ["/"%byte])) in E
      by (rewrite EA, !zlen_app; change (zlen ["/"%byte]) with 1; lia).
    rewrite EA in E. change (p ++ "/"%byte :: q) with (p ++ ["/"%byte] ++ q) in E. rewrite app_assoc, ztake_app in E by reflexivity.
    rewrite P_bytes.ztake_all in E by (unfold MAX_PORT_STR_LEN; apply dec5; lia).
    exists (p ++ ["/"%byte] ++ dec port). split.
    + rewrite <- E. change ($ ",") with [","%byte]. rewrite <- !app_assoc. reflexivity.
    + left. split; auto. exists p, q. ands; auto. rewrite in_app_iff. tauto.
  - injection E as E. rewrite <- E in L. rewrite (cut_lt _ 256) in E by (auto; lia). exists (o_access o). split; [rewrite <- E; reflexivity|].
    right. split; [lia|reflexivity].
Qed.

Lemma leading_digits_spec n s : exists r, s = leading_digits n s ++ r /\ all_digits (leading_digits n s) /\ zlen (leading_digits n s) <= Z.of_nat n /\
  (r = [] \/ ~ digit (hd x00 r) \/ zlen (leading_digits n s) = Z.of_nat n).
Proof.
  revert s. induction n as [|n IH]; intros s.
  - exists s. cbn [leading_digits]. ands; [reflexivity|constructor|rewrite zlen_nil; lia|right; right; reflexivity].
  - destruct s as [|c s]; [exists []; cbn [leading_digits]; ands; auto; [constructor|rewrite zlen_nil; lia]|].
    cbn [leading_digits]. destruct (isdigit c) eqn:D.
    + destruct (IH s) as (r & E & A & L & O). exists r. ands.
      * cbn [app]. congruence.
      * constructor; auto. unfold isdigit in D. unfold digit. lia.
      * rewrite zlen_cons. lia.
      * destruct O as [O|[O|O]]; auto. right. right. rewrite zlen_cons. lia.
    + exists (c :: s). cbn [app]. ands; auto; [constructor|rewrite zlen_nil; lia|]. right. left. cbn [hd]. unfold isdigit in D. unfold digit. lia.
Qed.
Lemma strtol_ok_iff e : strtol_ok e = true <-> e = STRTOL_OK.
Proof. destruct e; cbn; split; congruence. Qed.

Lemma forallb_digits ds : forallb isdigit ds = true -> all_digits ds.
Proof. rewrite forallb_forall. intro F. apply Forall_forall. intros x I. specialize (F x I). unfold isdigit in F. unfold digit. lia. Qed.

Lemma nat_text_ok o t : options_ok o -> nat_text o = Ok (Some t) -> zlen t < 128 -> o_nat_local o = true \/ o_nat_access o <> [] -> nat_wanted o t.
Proof.
  intros OK E L AS. unfold nat_text in E. pose proof (strchr_split "/"%byte (o_access o)) as SP.
  destruct (strchr "/"%byte (o_access o)) as [rest|]; [|discriminate]. destruct SP as (a & q & EA & -> & NA).
  change (zdrop 1 ("/"%byte :: q)) with q in E.
  destruct (leading_digits_spec (Z.to_nat MAX_PORT_STR_LEN) q) as (r & EQ & DG & DL & DO).
  set (ds := leading_digits (Z.to_nat MAX_PORT_STR_LEN) q) in *. change (Z.of_nat (Z.to_nat MAX_PORT_STR_LEN)) with 5 in *.
  destruct (strtol_wrapper ds 1 MAX_PORT) as [port e] eqn:W. destruct (strtol_ok e) eqn:OKE; cbn [negb] in E; [|discriminate].
  apply strtol_ok_iff in OKE. subst e. destruct (strtol_wrapper_digits_inv ds 1 MAX_PORT port DG ltac:(lia) W) as (PV & P1 & P2).
  unfold MAX_PORT in P2. specialize (P2 ltac:(lia)). rewrite <- PV in P1, P2.
  assert (FP : first_port (o_access o) port).
  { exists a, ds, r. ands; auto; try lia.
    - rewrite EA, EQ. reflexivity.
    - destruct ds; [|rewrite zlen_cons; pose proof (zlen_nonneg ds); lia]. unfold decimal, radix in PV. cbn in PV. lia. }
  assert (DW : forall p, 1 <= p <= 65535 -> writes (dec p) p) by (intros; apply dec_writes; lia).
  destruct (o_nat_local o && negb (given (o_nat_access o))) eqn:B.
  - apply andb_true_iff in B as [B1 B2]. destruct (o_nat_access o) eqn:NE; [|discriminate].
    injection E as E. rewrite <- E in L. rewrite (cut_lt _ 128) in E by (auto; lia).
    exists (o_server o), port, (dec port). ands; [rewrite <- E; reflexivity|apply DW; lia|]. left. auto.
  - assert (NE : o_nat_access o <> []).
    { intro N. rewrite N in *. destruct AS as [AS|AS]; [rewrite AS in B; discriminate|contradiction]. }
    match type of E with context [sbind (match strchr _ ?x with _ => _ end)] => set (t0 := x) in E end.
    assert (T0 : (~ In ":"%byte t0 /\ t0 = o_nat_access o) \/
                 exists x y, o_nat_access o = x ++ ":"%byte :: y /\ ~ In ":"%byte x /\ t0 = x ++ ","%byte :: y).
    { unfold t0. pose proof (strchr_split ":"%byte (o_nat_access o)) as SC. destruct (strchr ":"%byte (o_nat_access o)) as [r0|]; [|auto].
      destruct SC as (x & y & EX & -> & NX). right. exists x, y. ands; auto. change (zdrop 1 (":"%byte :: y)) with y.
      rewrite EX at 2. rewrite ztake_app; [reflexivity|]. rewrite EX, zlen_app. lia. }
    clearbody t0. apply sbind_ok in E as ([host p] & HP & E). cbv iota in E.
    destruct ((p <? 1) || (p >? 65535)) eqn:PR; [discriminate|].
    assert (TE : t = host ++ [","%byte] ++ dec p).
    { destruct (is_valid_ipv4_addr host (zlen host)).
      - injection E as E. rewrite <- E in L. rewrite (cut_lt _ 128) in E by (auto; lia). symmetry. exact E.
      - destruct (is_valid_hostname host (zlen host)) as [[|]|]; try discriminate. injection E as E. rewrite <- E in L. rewrite (cut_lt _ 128) in E by (auto; lia). symmetry. exact E. }
    exists host, p, (dec p). split; auto. split; [apply DW; lia|]. right. split; auto.
    pose proof (strchr_split ","%byte t0) as SC. destruct (strchr ","%byte t0) as [r0|].
    + destruct SC as (x & y & EX & -> & NX). change (zdrop 1 (","%byte :: y)) with y in HP.
      destruct (negb (forallb isdigit y) || (zlen y >? MAX_PORT_STR_LEN + 1)) eqn:G; [discriminate|]. apply orb_false_iff in G as [G1 G2].
      apply negb_false_iff in G1. apply forallb_digits in G1. unfold MAX_PORT_STR_LEN in G2.
      destruct (strtol_wrapper y 1 MAX_PORT) as [n e] eqn:W2. destruct (strtol_ok e) eqn:OKE; cbn [negb] in HP; [|discriminate].
      apply strtol_ok_iff in OKE. subst e. destruct (strtol_wrapper_digits_inv y 1 MAX_PORT n G1 ltac:(lia) W2) as (PV2 & P3 & P4).
      unfold MAX_PORT in P4. specialize (P4 ltac:(lia)).
      injection HP as HP1 HP2. subst n.
      assert (HX : host = x). { rewrite <- HP1. rewrite EX at 2. rewrite ztake_app; [reflexivity|]. rewrite EX, zlen_app. lia. }
      clear HP1. subst host.
      assert (NYC : forall c, In c y -> digit c) by (apply Forall_forall; exact G1).
      destruct T0 as [(N1 & EO)|(x1 & y1 & EO & N1 & ET)].
      * assert (~ In ":"%byte x) by (intro I; apply N1; rewrite EX; apply in_app_iff; auto).
        ands; auto. right. exists ","%byte, y. rewrite <- EO. ands; auto; lia.
      * (* t0 = x1 , y1 = x , y with no comma in x; the comma of x1 is the first one *)
        assert (XX : x1 = x /\ y1 = y).
        { assert (NY : ~ In ","%byte y) by (intro I; destruct (NYC _ I) as [X _]; exact (X eq_refl)).
          rewrite EX in ET. clear -ET NX NY. revert x1 ET. induction x as [|c x IH]; intros x1 ET.
          - destruct x1 as [|c1 x1]; cbn in ET; [injection ET as ->; auto|]. injection ET as <- ->. exfalso. apply NY, in_app_iff. right; left; auto.
          - destruct x1 as [|c1 x1]; cbn in ET; [injection ET as -> _; exfalso; apply NX; left; auto|]. injection ET as -> ET.
            destruct (IH ltac:(intro; apply NX; right; auto) _ ET). subst. auto. }
        destruct XX as [-> ->]. ands; auto. right. exists ":"%byte, y. ands; auto; lia.
    + injection HP as <- <-. destruct T0 as [(N1 & EO)|(x1 & y1 & EO & N1 & ET)].
      * subst t0. ands; auto.
      * exfalso. apply SC. rewrite ET. apply in_app_iff. right; left; auto.
Qed.
