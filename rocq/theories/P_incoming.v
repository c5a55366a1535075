(** Proofs about the processing of a packet. *)
From Verif Require Import Bytes P_bytes M_base64 M_util M_message M_codec M_cipher M_ctx M_access M_replay M_cycle M_incoming.
From Coq Require Import Init.Byte List ZArith Bool Lia.
Import ListNotations.
Open Scope Z_scope.

(** ** The loop over the stanzas, one at a time *)
Section Loop.
Variables (H : hashes) (G : gpg) (cf : conf) (en : env) (p : pkt_info) (data fwd : bytes) (raw : option bytes).

(** What happens at one stanza: flow, effects, the stanza, [added], replay state, cycles. *)
Definition note_replay (added : bool) (rp : cache * file) : bool * bool * (cache * file) :=
  match raw with
  | Some dg => if negb (cf_test cf) && negb added
               then let '(r, rp') := add_replay (e_writable en) dg p (e_now en) rp in (r, r, rp')
               else (true, added, rp)
  | None => (true, added, rp)
  end.
Definition step (a : stanza) (k : Z) (added : bool) (rp : cache * file) (cy : list cycle)
  : outcome (flow * list effect * stanza * bool * (cache * file) * list cycle) :=
  if negb (src_dst_check a p) then Ok (Next, [], a, added, rp, cy)
  else let '(live, a) := check_stanza_expiration (e_now en) a in
  if negb live then Ok (Next, [], a, added, rp, cy)
  else match decrypt_packet H G a data with
  | Fault => Fault
  | Ok None => Ok (Next, [], a, added, rp, cy)
  | Ok (Some (c, sg)) =>
      let '(okd, added, rp) := note_replay added rp in
      if negb okd then Ok (Next, [], a, added, rp, cy)
      else match handle_gpg_sigs a (encryption_type (Some data)) c sg with
      | Fault => Fault
      | Ok false => Ok (Next, [], a, added, rp, cy)
      | Ok true =>
          match checks cf (e_now en) p fwd a c with
          | Fault => Fault
          | Ok Refuse => Ok (Next, [], a, added, rp, cy)
          | Ok Abort => Ok (Break, [], a, added, rp, cy)
          | Ok (Pass d) =>
              match act cf (e_now en) a k d cy with
              | Fault => Fault
              | Ok (fl, eff, cy) => Ok (fl, eff, a, added, rp, cy)
              end
          end
      end
  end.
Lemma loop_cons a r k added rp cy :
  stanza_loop H G cf en p data fwd raw (a :: r) k added rp cy =
  match step a k added rp cy with
  | Fault => Fault
  | Ok (Break, eff, a', added', rp', cy') => Ok (eff, a' :: r, rp', cy')
  | Ok (Next, eff, a', added', rp', cy') =>
      match stanza_loop H G cf en p data fwd raw r (k + 1) added' rp' cy' with
      | Fault => Fault
      | Ok (eff', r', rp'', cy'') => Ok (eff ++ eff', a' :: r', rp'', cy'')
      end
  end.
Proof.
  cbn [stanza_loop]. unfold step. destruct (negb (src_dst_check a p)); [reflexivity|].
  destruct (check_stanza_expiration (e_now en) a) as [live a']. destruct (negb live); [reflexivity|].
  destruct (decrypt_packet H G a' data) as [[[c sg]|]|]; [|reflexivity|reflexivity].
  change (match raw with
          | Some dg => if negb (cf_test cf) && negb added
                       then let '(r0, rp') := add_replay (e_writable en) dg p (e_now en) rp in (r0, r0, rp')
                       else (true, added, rp)
          | None => (true, added, rp) end) with (note_replay added rp).
  destruct (note_replay added rp) as [[okd ad] rp1]. destruct (negb okd); [reflexivity|].
  destruct (handle_gpg_sigs a' (encryption_type (Some data)) c sg) as [[|]|]; try reflexivity.
  destruct (checks cf (e_now en) p fwd a' c) as [[| |d]|]; try reflexivity.
  destruct (act cf (e_now en) a' k d cy) as [[[[|] eff] cy']|]; reflexivity.
Qed.

(** The checks a stanza must pass before anything is done. *)
Definition reaches (a : stanza) (d : spa_data) : Prop :=
  src_dst_check a p = true /\ check_stanza_expiration (e_now en) a = (true, a) /\
  exists c sg, decrypt_packet H G a data = Ok (Some (c, sg)) /\
    handle_gpg_sigs a (encryption_type (Some data)) c sg = Ok true /\
    checks cf (e_now en) p fwd a c = Ok (Pass d).

Lemma expiration_cases now a : check_stanza_expiration now a = (true, a) \/
  check_stanza_expiration now a = (false, a) \/
  (check_stanza_expiration now a = (false, expire_stanza a) /\ a_expire a > 0 /\ now > a_expire a).
Proof.
  unfold check_stanza_expiration. destruct (a_expire a >? 0) eqn:E; auto. destruct (a_expired a); auto.
  destruct (now >? a_expire a) eqn:F; auto. right. right. split; auto. lia.
Qed.

(** Every step of a stanza: either nothing is done and the loop goes on, or the loop is left
    without effect, or the stanza acts. *)
Lemma step_cases a k added rp cy fl eff a' added' rp' cy' :
  step a k added rp cy = Ok (fl, eff, a', added', rp', cy') ->
  (a' = a \/ a' = snd (check_stanza_expiration (e_now en) a)) /\
  ((eff = [] /\ cy' = cy) \/
   exists d, reaches a d /\ a' = a /\ note_replay added rp = (true, added', rp') /\
     act cf (e_now en) a k d cy = Ok (fl, eff, cy')).
Proof.
  unfold step. destruct (src_dst_check a p) eqn:SD; cbn [negb]; [|intro E; inversion E; subst; auto].
  destruct (expiration_cases (e_now en) a) as [X|[X|[X _]]]; rewrite X; cbn [negb snd];
    [|intro E; inversion E; subst; auto|intro E; inversion E; subst; auto].
  destruct (decrypt_packet H G a data) as [[[c sg]|]|] eqn:DP; [|intro E; inversion E; subst; auto|discriminate].
  destruct (note_replay added rp) as [[okd ad] rp1] eqn:NR. destruct okd; cbn [negb]; [|intro E; inversion E; subst; auto].
  destruct (handle_gpg_sigs a (encryption_type (Some data)) c sg) as [[|]|] eqn:GS; [|intro E; inversion E; subst; auto|discriminate].
  destruct (checks cf (e_now en) p fwd a c) as [[| |d]|] eqn:CK; [intro E; inversion E; subst; auto|intro E; inversion E; subst; auto| |discriminate].
  destruct (act cf (e_now en) a k d cy) as [[[fl' eff'] cy1]|] eqn:AC; [|discriminate].
  intro E; inversion E; subst. split; auto. right. exists d. repeat split; auto. exists c, sg. auto.
Qed.

(** Effects of the loop come from stanzas. *)
Lemma loop_effects : forall l k added rp cy eff l' rp' cy',
  stanza_loop H G cf en p data fwd raw l k added rp cy = Ok (eff, l', rp', cy') ->
  forall e, In e eff -> exists i a d ad0 rp0 ad1 rp1 cy0 fl effs cy1,
    nth_error l i = Some a /\ reaches a d /\ note_replay ad0 rp0 = (true, ad1, rp1) /\
    act cf (e_now en) a (k + Z.of_nat i) d cy0 = Ok (fl, effs, cy1) /\ In e effs.
Proof.
  induction l as [|a r IH]; intros k added rp cy eff l' rp' cy' E e I.
  - inversion E; subst. destruct I.
  - rewrite loop_cons in E. destruct (step a k added rp cy) as [[[[[[fl ef] a'] ad'] rp1] cy1]|] eqn:ST; [|discriminate].
    assert (HERE : In e ef -> exists i a0 d ad0 rp0 ad1 rp1 cy0 fl effs cy1,
      nth_error (a :: r) i = Some a0 /\ reaches a0 d /\ note_replay ad0 rp0 = (true, ad1, rp1) /\
      act cf (e_now en) a0 (k + Z.of_nat i) d cy0 = Ok (fl, effs, cy1) /\ In e effs).
    { intro J. destruct (step_cases _ _ _ _ _ _ _ _ _ _ _ ST) as [_ [[-> _]|(d & R & _ & N & A)]]; [destruct J|].
      exists 0%nat, a, d. do 8 eexists. split; [reflexivity|]. split; [exact R|]. split; [exact N|].
      rewrite Z.add_0_r. split; [exact A|exact J]. }
    destruct fl.
    + destruct (stanza_loop H G cf en p data fwd raw r (k + 1) ad' rp1 cy1) as [[[[ef2 r'] rp2] cy2]|] eqn:L; [|discriminate].
      inversion E; subst. apply in_app_or in I as [I|I]; [auto|].
      destruct (IH _ _ _ _ _ _ _ _ L e I) as (i & b & d & ad0 & rp0 & ad1 & rp3 & cy0 & fl & effs & cy3 & N & R & NR & A & J).
      exists (S i), b, d. do 8 eexists. split; [exact N|]. split; [exact R|]. split; [exact NR|].
      replace (k + Z.of_nat (S i)) with (k + 1 + Z.of_nat i) by lia. split; [exact A|exact J].
    + inversion E; subst. auto.
Qed.
End Loop.

(** ** The whole packet *)
Definition tracked (H : hashes) (cf : conf) (data : bytes) (l : cache) (raw : option bytes) : Prop :=
  (yes (cf_digest_persistence cf) = true /\ exists dg, raw = Some dg /\ get_raw_digest H data = Ok (Some dg) /\ is_replay l dg = Ok false) \/
  (yes (cf_digest_persistence cf) = false /\ raw = None).
Lemma incoming_cases H G cf en p st effs st' : incoming_spa H G cf en p st = Ok (effs, st') ->
  (effs = [] /\ st' = st) \/
  exists data fwd raw acc' rp' cy', preprocess cf p = Ok (Some (data, fwd)) /\
    tracked H cf data (fst (st_replay st)) raw /\
    stanza_loop H G cf en (k_info p) data fwd raw (st_acc st) 1 false (st_replay st) (st_cycles st) = Ok (effs, acc', rp', cy') /\
    st' = mkSt acc' rp' cy'.
Proof.
  unfold incoming_spa. destruct (preprocess cf p) as [[[data fwd]|]|] eqn:P; [|intro E; inversion E; auto|discriminate].
  destruct (negb _); [intro E; inversion E; auto|].
  assert (LOOP : forall raw, tracked H cf data (fst (st_replay st)) raw ->
    match stanza_loop H G cf en (k_info p) data fwd raw (st_acc st) 1 false (st_replay st) (st_cycles st) with
    | Ok (eff, acc', rp', cy') => Ok (eff, mkSt acc' rp' cy')
    | Fault => Fault
    end = Ok (effs, st') ->
    (effs = [] /\ st' = st) \/
    exists data0 fwd0 raw acc' rp' cy', Ok (Some (data, fwd)) = Ok (Some (data0, fwd0)) /\
      tracked H cf data0 (fst (st_replay st)) raw /\
      stanza_loop H G cf en (k_info p) data0 fwd0 raw (st_acc st) 1 false (st_replay st) (st_cycles st) = Ok (effs, acc', rp', cy') /\
      st' = mkSt acc' rp' cy').
  { intros raw T E. destruct (stanza_loop H G cf en (k_info p) data fwd raw (st_acc st) 1 false (st_replay st) (st_cycles st))
      as [[[[eff acc'] rp'] cy']|] eqn:L; [|discriminate]. inversion E; subst. right. exists data, fwd, raw, acc', rp', cy'. auto. }
  destruct (yes (cf_digest_persistence cf)) eqn:Y.
  - destruct (get_raw_digest H data) as [[dg|]|] eqn:D; [|intro E; inversion E; auto|discriminate].
    destruct (is_replay (fst (st_replay st)) dg) as [[|]|] eqn:R; [intro E; inversion E; auto| |discriminate].
    apply LOOP. left. split; auto. exists dg. auto.
  - apply LOOP. right. auto.
Qed.

Lemma incoming_effects H G cf en p st effs st' : incoming_spa H G cf en p st = Ok (effs, st') ->
  forall e, In e effs -> exists data fwd i a d cy0 fl effs' cy1,
    preprocess cf p = Ok (Some (data, fwd)) /\ nth_error (st_acc st) i = Some a /\
    reaches H G cf en (k_info p) data fwd a d /\
    act cf (e_now en) a (1 + Z.of_nat i) d cy0 = Ok (fl, effs', cy1) /\ In e effs'.
Proof.
  intros E e I. destruct (incoming_cases _ _ _ _ _ _ _ _ E) as [[-> _]|(data & fwd & raw & acc' & rp' & cy' & P & _ & L & _)]; [destruct I|].
  destruct (loop_effects _ _ _ _ _ _ _ _ _ _ _ _ _ _ _ _ _ L e I) as (i & a & d & ad0 & rp0 & ad1 & rp1 & cy0 & fl & effs' & cy1 & N & R & _ & A & J).
  exists data, fwd, i, a, d, cy0, fl, effs', cy1. auto.
Qed.

(** ** What the stages mean *)
Lemma act_cases cf now a k d cy fl effs cy' e : act cf now a k d cy = Ok (fl, effs, cy') -> In e effs ->
  (exists cc cmd, a_cycle a = Some cc /\ e = CycleOpen k cmd /\ build_cmd d (cc_open cc) (cc_timer cc) = Ok (Some cmd)) \/
  (a_cycle a = None /\ d_type d = 0 /\ a_cmd a = true /\ cf_test cf = false /\ effs = [e] /\ fl = Break /\
   process_cmd_msg cf a k d = Ok (Some e)) \/
  (a_cycle a = None /\ d_type d <> 0 /\ cf_test cf = false /\ e = Grant k d /\ effs = [e] /\ fl = Break /\
   acc_check_port_access (a_open a) (a_restrict a) (d_remain d) = true).
Proof.
  unfold act. destruct (a_cycle a) as [cc|].
  - unfold cmd_cycle_open. destruct (build_cmd d (cc_open cc) (cc_timer cc)) as [[o|]|] eqn:B; [| |discriminate].
    + destruct (cc_do_close cc).
      * destruct (build_cmd d (cc_close cc) (cc_timer cc)) as [[cl|]|]; [| |discriminate];
          intro E; inversion E; subst; intros [<-|[]]; left; exists cc, o; auto.
      * intro E; inversion E; subst; intros [<-|[]]; left; exists cc, o; auto.
    + intro E; inversion E; subst; intros [].
  - destruct (d_type d =? FKO_COMMAND_MSG) eqn:T.
    + destruct (process_cmd_msg cf a k d) as [[x|]|] eqn:P; [| |discriminate]; intro E; inversion E; subst; [|intros []].
      intros [->|[]]. right. left. split; auto. split; [unfold FKO_COMMAND_MSG in T; lia|].
      unfold process_cmd_msg in P. destruct (a_cmd a); [|discriminate]. destruct (cf_test cf); [discriminate|]. auto 10.
    + destruct (acc_check_port_access (a_open a) (a_restrict a) (d_remain d)) eqn:PC; cbn [negb]; [|intro E; inversion E; subst; intros []].
      destruct (cf_test cf); [intro E; inversion E; subst; intros []|]. intro E; inversion E; subst. intros [<-|[]].
      right. right. split; auto. split; [unfold FKO_COMMAND_MSG in T; lia|]. auto 10.
Qed.

Lemma checks_pass cf now p fwd a c d : checks cf now p fwd a c = Ok (Pass d) ->
  exists user msg version src rest use,
    c_user c = Some user /\ c_msg c = Some msg /\ c_version c = Some version /\
    check_pkt_age cf now (c_time c) = true /\ msg = src ++ ["," %byte] ++ rest /\ ~ In ","%byte src /\
    6 <= zlen src <= 15 /\ is_valid_ipv4_addr src (zlen src) = true /\
    check_src_access a src fwd (inet_ntop (p_src p)) = Some use /\ check_username a user = true /\
    check_nat_access_types cf (c_type c) = true /\
    d = M_cycle.mkSpa user (c_time c) version (c_type c) msg src (inet_ntop (p_src p)) fwd (inet_ntop (p_dst p))
          (ztake 1023 rest) (c_nat c) (c_auth c) (u32 (c_timeout c)) (set_timeout a (u32 (c_timeout c))) use.
Proof.
  unfold checks. destruct (c_user c) as [user|]; [|discriminate]. destruct (c_msg c) as [msg|]; [|discriminate].
  destruct (c_version c) as [version|]; [|discriminate]. cbv zeta.
  destruct (check_pkt_age cf now (c_time c)); cbn [negb]; [|discriminate].
  destruct (strchr ","%byte msg) as [r|] eqn:SC; [|discriminate].
  assert (SPL : exists src rest, msg = src ++ ","%byte :: rest /\ ~ In ","%byte src /\ r = ","%byte :: rest).
  { clear -SC. revert r SC. induction msg as [|x msg IH]; intros r SC; [discriminate|]. cbn [strchr] in SC.
    destruct (beq_spec x ","%byte) as [->|N].
    - inversion SC; subst. exists [], msg. repeat split; auto.
    - destruct (IH r SC) as (src & rest & -> & NI & ->). exists (x :: src), rest. repeat split; auto.
      intros [E|E]; [congruence|auto]. }
  destruct SPL as (src & rest & -> & NI & ->). rewrite zlen_app, zlen_cons.
  replace (zlen src + (1 + zlen rest) - (1 + zlen rest)) with (zlen src) by lia.
  replace (ztake (zlen src) (src ++ ","%byte :: rest)) with src by (symmetry; apply ztake_app; reflexivity).
  destruct (_ || _) eqn:D1; [discriminate|]. destruct (zlen src + 1 >? MAX_IPV4_STR_LEN) eqn:D2; [discriminate|].
  destruct (is_valid_ipv4_addr src (zlen src)) eqn:V; cbn [negb]; [|discriminate].
  destruct (check_src_access a src fwd (inet_ntop (p_src p))) as [use|] eqn:SA; [|discriminate].
  destruct (check_username a user) eqn:U; cbn [negb]; [|discriminate].
  destruct (check_nat_access_types cf (c_type c)) eqn:NT; cbn [negb]; [|discriminate].
  intro E; inversion E; subst. exists user, (src ++ ","%byte :: rest), version, src, rest, use.
  unfold MIN_IPV4_STR_LEN, MAX_IPV4_STR_LEN in *. repeat split; auto; try lia.
Qed.
