(** Proofs about the configuration of the client: the whole of config_init. *)
From Verif Require Import Bytes M_accfile M_base64 M_util M_message M_codec M_cipher M_ctx M_access M_replay M_cycle M_incoming M_conf M_codec M_client M_send
  S_base64 S_text S_conf S_accfile P_bytes P_base64 P_util P_util2 P_access P_replay P_conf P_accfile P_accfile2 P_accfile3 P_accfile4 P_accfile6 P_message P_codec P_client P_client4 P_incoming5 M_rc S_rc P_rc P_rc2 P_rc3 P_rc4.
From Coq Require Import Init.Byte List ZArith Bool Lia.
Import ListNotations.
Open Scope Z_scope.

Local Ltac ands := repeat match goal with |- _ /\ _ => split end.

(** ** First pass *)
Definition first_n (f : qfield) (n v : bytes) : option Z :=
  let yes p := if is n p then if is_yes v then Some 1 else None else None in
  match f with
  | q_no_save => yes ($ "NO_SAVE_ARGS") | q_no_rc => yes ($ "--no-rc-file") | q_save => yes ($ "--save-rc-stanza")
  | _ => None
  end.
Definition first_t (f : tfield) (n v : bytes) : option bytes :=
  match f with t_stanza => if is n ($ "-n") then Some (fit t_stanza v) else None | _ => None end.
Definition skip1 (f : qfield) : bool := match f with q_no_home | q_list | q_verbose => true | _ => false end.
Definition moved1 (b : list (bytes * bytes)) (o o' : copts) : Prop :=
  (forall f, unseen_t f = false -> txt o' f = run (first_t f) b (txt o f)) /\
  (forall f, skip1 f = false -> num o' f = run (first_n f) b (num o f)) /\
  num o' q_verbose mod 256 = (num o q_verbose + count ($ "-v") b) mod 256 /\
  (0 <= num o q_verbose < 256 -> 0 <= num o' q_verbose < 256).
Lemma count_app p b c : count p (b ++ c) = count p b + count p c.
Proof. induction b as [|e b IH]; [reflexivity|]. cbn [app count]. rewrite IH. lia. Qed.
Lemma moved1_app b c o o1 o2 : moved1 b o o1 -> moved1 c o1 o2 -> moved1 (b ++ c) o o2.
Proof.
  intros (A1 & A2 & A3 & A4) (B1 & B2 & B3 & B4). unfold moved1. ands.
  - intros f U. rewrite run_app, <- A1, <- B1 by auto. reflexivity.
  - intros f U. rewrite run_app, <- A2, <- B2 by auto. reflexivity.
  - rewrite B3, count_app, Z.add_assoc, Z.add_mod, A3, <- Z.add_mod by lia. reflexivity.
  - auto.
Qed.
Lemma first_moved a s s' : first_arg a s = Ok (Some s') -> moved1 (means a) (fst s) (fst s').
Proof.
  destruct a as [c v], s as [o m]. destruct c; cbn [first_arg]; unfold ret; intros E; try discriminate E; injection E as <-; cbn [fst];
    unfold moved1; ands;
    try (intros f U; destruct f; try discriminate U; reflexivity); try (intros R; exact R);
    try (match goal with |- context [count ?p ?b] => change (count p b) with 0; rewrite Z.add_0_r; reflexivity end).
  - cbn [num set_n qfield_beq means count fst]. change (bseq ($ "-v") ($ "-v")) with true. cbv iota. rewrite Z.mod_mod by lia. f_equal; lia.
  - intros _. cbn [num set_n qfield_beq]. apply Z.mod_pos_bound. lia.
Qed.
Lemma firsts_moved args : forall s s', all_args first_arg args s = Ok (Some s') -> moved1 (command args) (fst s) (fst s').
Proof.
  induction args as [|a args IH]; intros s s' E; cbn [all_args] in E.
  - injection E as <-. unfold moved1. ands; auto. change (command []) with (@nil (bytes * bytes)). cbn [count]. now rewrite Z.add_0_r.
  - apply sbind_ok in E as (s1 & S & E). change (command (a :: args)) with (means a ++ command args).
    eapply moved1_app; [eapply first_moved; exact S|apply IH; exact E].
Qed.

(** ** The checks *)
Definition special (o : copts) : bool := is_set o q_test || is_set o q_key_gen || is_set o q_version || is_set o q_show_last || is_set o q_run_last.
Definition looked_up (o : copts) : bool := bseq (map tolower (ztake 7 (txt o t_ip))) ($ "resolve").
Definition valid_ip (s : bytes) : bool := is_valid_ipv4_addr s (zlen s).
Record checked (o o' : copts) : Prop := {
  ch_txt : forall f, f <> t_stanza -> f <> t_agent -> txt o' f = txt o f;
  ch_num : forall f, f <> q_resolve -> f <> q_hmac_type -> num o' f = num o f;
  ch_hmac_type : num o' q_hmac_type = if (is_set o q_use_hmac || is_set o q_key_gen) && (num o q_hmac_type =? 0) then 3 else num o q_hmac_type;
  ch_found : given (txt o t_stanza) = true -> is_set o q_got = true \/ is_set o q_save = true;
  ch_stanza : txt o' t_stanza = if is_set o q_save && negb (given (txt o t_stanza)) then fit t_stanza (txt o t_server) else txt o t_stanza;
  ch_stanza_server : is_set o q_save = true -> given (txt o t_stanza) = false -> given (txt o t_server) = true;
  ch_server : special o = false -> given (txt o t_server) = true;
  ch_ip : given (txt o t_ip) = true -> looked_up o = false -> valid_ip (txt o t_ip) = true /\ num o' q_resolve = 0;
  ch_resolve : given (txt o t_ip) = false \/ looked_up o = true ->
    num o' q_resolve = if negb (special o) && is_set o q_have_url then 1 else num o q_resolve;
  ch_some : special o = false -> given (txt o t_ip) = true \/ is_set o' q_resolve = true;
  ch_spoof : given (txt o t_spoof_ip) = true -> valid_ip (txt o t_spoof_ip) = true /\ (num o q_proto = 3 \/ num o q_proto = 1 \/ num o q_proto = 4);
  ch_agent : txt o' t_agent = if (is_set o' q_resolve || (num o q_proto =? 5)) && negb (given (txt o t_agent)) then $ "Fwknop/2.6.11" else txt o t_agent;
  ch_proxy : given (txt o t_proxy) = true -> num o q_proto = 5;
  ch_gpg : is_set o q_use_gpg = true -> given (txt o t_recipient) = true;
  ch_asym : num o q_mode = 7 -> is_set o q_use_gpg = true;
  ch_legacy : num o q_mode = 8 -> is_set o q_use_hmac = false }.
Ltac dif := match goal with |- context [if ?b then _ else _] => destruct b end.
Lemma validate_checked o o' : validate_options o = Ok (Some o') -> checked o o'.
Proof.
  unfold validate_options. destruct (given (txt o t_stanza) && negb (is_set o q_got) && negb (is_set o q_save)) eqn:C1; [discriminate|].
  intros E. apply sbind_ok in E as (oa & EA & E).
  assert (HA : oa = (if is_set o q_save && negb (given (txt o t_stanza)) then set_t t_stanza (txt o t_server) o else o) /\
    (is_set o q_save && negb (given (txt o t_stanza)) = true -> given (txt o t_server) = true)).
  { destruct (is_set o q_save && negb (given (txt o t_stanza))); [destruct (given (txt o t_server)); [|discriminate EA]|]; injection EA as <-; split; auto; discriminate. }
  destruct HA as [HA1 HA2]. clear EA.
  assert (NA : num oa = num o) by (rewrite HA1; dif; reflexivity).
  assert (TA : forall f, f <> t_stanza -> txt oa f = txt o f).
  { intros f F. rewrite HA1. dif; [|reflexivity]. cbn [txt set_t]. destruct (tfield_beq f t_stanza) eqn:Q; [|reflexivity].
    apply internal_tfield_dec_bl in Q. contradiction. }
  assert (SA : forall f, is_set oa f = is_set o f) by (intro f; unfold is_set; now rewrite NA).
  rewrite !SA, (TA t_server) in E by discriminate.
  apply sbind_ok in E as (ob & EB & E). fold (special o) in EB.
  set (r1 := if negb (special o) && is_set o q_have_url then 1 else num o q_resolve) in *.
  assert (HB : txt ob = txt oa /\ (forall f, f <> q_resolve -> num ob f = num o f) /\ num ob q_resolve = r1 /\
     (special o = false -> given (txt o t_server) = true /\ (given (txt o t_ip) = true \/ r1 <> 0))).
  { destruct (special o) eqn:SP; unfold r1; cbn [negb andb].
    - injection EB as <-. ands; auto; try (rewrite NA; auto); discriminate.
    - destruct (given (txt o t_server)); [|discriminate EB]. cbn [negb] in EB. destruct (is_set o q_have_url) eqn:HU.
      + cbn [is_set num set_n qfield_beq] in EB. change (negb (negb (1 =? 0)) ) with false in EB. cbn [andb] in EB. injection EB as <-.
        ands; auto; [|intros _; split; [reflexivity|right; lia]]. intros f F. cbn [num set_n]. destruct (qfield_beq f q_resolve) eqn:Q; [apply internal_qfield_dec_bl in Q; contradiction|now rewrite NA].
      + rewrite SA, (TA t_ip) in EB by discriminate. destruct (negb (is_set o q_resolve) && negb (given (txt o t_ip))) eqn:RI; [discriminate EB|].
        injection EB as <-. rewrite NA. ands; auto. intros _. split; [reflexivity|]. unfold is_set in RI.
        destruct (given (txt o t_ip)); [auto|]. right. destruct (num o q_resolve =? 0) eqn:Q; [discriminate RI|lia]. }
  clear EB. destruct HB as (TB & NB & RB & SB).
  assert (TB' : forall f, f <> t_stanza -> txt ob f = txt o f) by (intros f F; rewrite TB; auto).
  assert (SB' : forall f, f <> q_resolve -> is_set ob f = is_set o f) by (intros f F; unfold is_set; now rewrite NB).
  apply sbind_ok in E as (oc & EC & E). rewrite (TB' t_ip) in EC by discriminate. fold (looked_up o) (valid_ip (txt o t_ip)) in EC.
  assert (HC : txt oc = txt oa /\ (forall f, f <> q_resolve -> num oc f = num o f) /\
     (if given (txt o t_ip) && negb (looked_up o) then valid_ip (txt o t_ip) = true /\ num oc q_resolve = 0 else num oc q_resolve = r1)).
  { destruct (given (txt o t_ip) && negb (looked_up o)).
    - destruct (valid_ip (txt o t_ip)); [|discriminate EC]. injection EC as <-. ands; auto. intros f F. cbn [num set_n].
      destruct (qfield_beq f q_resolve) eqn:Q; [apply internal_qfield_dec_bl in Q; contradiction|auto].
    - injection EC as <-. auto. }
  clear EC NB RB SB' TB TB' ob. destruct HC as (TC & NC & RC).
  assert (TC' : forall f, f <> t_stanza -> txt oc f = txt o f) by (intros f F; rewrite TC; auto).
  assert (SC : forall f, f <> q_resolve -> is_set oc f = is_set o f) by (intros f F; unfold is_set; now rewrite NC).
  rewrite (TC' t_spoof_ip), (TC' t_agent), (NC q_proto) in E by discriminate. fold (valid_ip (txt o t_spoof_ip)) in E.
  destruct (given (txt o t_spoof_ip) && _) eqn:CS; [discriminate E|]. cbv zeta in E.
  remember (if (is_set oc q_resolve || (num o q_proto =? 5)) && negb (given (txt o t_agent)) then set_t t_agent ($ "Fwknop/2.6.11") oc else oc) as od eqn:OD.
  assert (ND : num od = num oc) by (rewrite OD; dif; reflexivity).
  assert (TD : forall f, f <> t_agent -> txt od f = txt oc f).
  { intros f F. rewrite OD. dif; [|reflexivity]. cbn [txt set_t]. destruct (tfield_beq f t_agent) eqn:Q; [|reflexivity].
    apply internal_tfield_dec_bl in Q. contradiction. }
  assert (AD : txt od t_agent = if (is_set oc q_resolve || (num o q_proto =? 5)) && negb (given (txt o t_agent)) then $ "Fwknop/2.6.11" else txt o t_agent).
  { rewrite OD. dif; [reflexivity|]. rewrite TC'; [reflexivity|discriminate]. }
  clear OD. assert (SD : forall f, f <> q_resolve -> is_set od f = is_set o f) by (intros f F; unfold is_set; rewrite ND, NC; auto).
  rewrite (TD t_proxy), (TC' t_proxy), (TD t_recipient), (TC' t_recipient), ND, (NC q_proto), (NC q_mode), (NC q_hmac_type), !SD in E by discriminate.
  destruct (given (txt o t_proxy) && negb (num o q_proto =? 5)) eqn:C5; [discriminate E|].
  destruct (is_set o q_use_gpg && negb (given (txt o t_recipient))) eqn:C6; [discriminate E|].
  destruct ((num o q_mode =? FKO_ENC_MODE_ASYMMETRIC) && negb (is_set o q_use_gpg)) eqn:C7; [discriminate E|].
  destruct ((num o q_mode =? FKO_ENC_MODE_CBC_LEGACY_IV) && is_set o q_use_hmac) eqn:C8; [discriminate E|].
  injection E as E.
  assert (TE : txt o' = txt od) by (rewrite <- E; dif; reflexivity).
  assert (NE : forall f, f <> q_hmac_type -> num o' f = num oc f).
  { intros f F. rewrite <- ND, <- E. dif; [|reflexivity]. cbn [num set_n]. destruct (qfield_beq f q_hmac_type) eqn:Q; [|reflexivity].
    apply internal_qfield_dec_bl in Q. contradiction. }
  assert (HE : num o' q_hmac_type = if (is_set o q_use_hmac || is_set o q_key_gen) && (num o q_hmac_type =? 0) then 3 else num o q_hmac_type).
  { rewrite <- E. dif; [reflexivity|]. rewrite ND. apply NC. discriminate. }
  clear E. split.
  - intros f F1 F2. rewrite TE, TD, TC' by auto. reflexivity.
  - intros f F1 F2. rewrite NE, NC by auto. reflexivity.
  - exact HE.
  - intros G. rewrite G in C1. cbn [andb] in C1. destruct (is_set o q_got); [auto|]. destruct (is_set o q_save); [auto|discriminate C1].
  - rewrite TE, TD by discriminate. rewrite TC, HA1. dif; reflexivity.
  - intros S G. apply HA2. now rewrite S, G.
  - intros S. apply SB, S.
  - intros G L. rewrite G, L in RC. cbn [negb andb] in RC. rewrite NE by discriminate. exact RC.
  - intros Q. rewrite NE by discriminate. destruct (given (txt o t_ip)); [destruct (looked_up o); [|destruct Q; discriminate]|]; exact RC.
  - intros S. destruct (SB S) as [_ [G|R]]; [auto|]. destruct (given (txt o t_ip)) eqn:G; [auto|]. right. cbn [andb] in RC. unfold is_set. rewrite NE by discriminate.
    rewrite RC. destruct (r1 =? 0) eqn:Q; [lia|reflexivity].
  - intros G. rewrite G in CS. cbn [andb] in CS. apply negb_false_iff, andb_true_iff in CS as [V P]. split; [exact V|]. lia.
  - rewrite TE, AD. unfold is_set. rewrite (NE q_resolve) by discriminate. reflexivity.
  - intros G. rewrite G in C5. cbn [andb] in C5. lia.
  - intros G. rewrite G in C6. destruct (given (txt o t_recipient)); [reflexivity|discriminate C6].
  - intros M. rewrite M in C7. destruct (is_set o q_use_gpg); [reflexivity|discriminate C7].
  - intros M. rewrite M in C8. destruct (is_set o q_use_hmac); [discriminate C8|reflexivity].
Qed.
