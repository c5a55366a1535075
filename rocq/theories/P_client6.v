(** Proofs about the client: passwords and key files completely, the other endings. *)
From Verif Require Import Bytes M_accfile M_base64 M_util M_message M_codec M_cipher M_ctx M_access M_replay M_cycle M_incoming M_packet M_codec M_client S_base64 S_text S_codec S_cipher S_ctx S_access S_conf S_cycle M_send S_client S_incoming S_packet S_send
  P_bytes P_base64 P_util P_util2 P_message P_codec P_cycle P_ctx P_ctx2 P_ctx3 P_ctx4 P_ctx5 P_ctx6 P_packet P_client P_client2 P_client3 P_client4 P_client5 P_send P_send2 P_send3 P_send4 P_incoming3.
From Coq Require Import Init.Byte List ZArith Bool Lia.
Import ListNotations.
Open Scope Z_scope.

Local Ltac ands := repeat match goal with |- _ /\ _ => split end.

(** ** Passwords *)
Lemma edits_len s t : edits s t -> zlen t <= 127.
Proof.
  induction 1 as [|s t c _ IH _ L|s t c _ IH _ L|s t c _ IH|s _ IH|s t _ IH]; try (vm_compute; discriminate); auto.
  - rewrite zlen_app. change (zlen [c]) with 1. lia.
  - rewrite zlen_app in IH. change (zlen [c]) with 1 in IH. lia.
Qed.
Lemma edits_fun s : forall t t', edits s t -> edits s t' -> t = t'.
Proof.
  induction s as [|c s IH] using rev_ind; intros t t' E E'.
  - inversion E as [E0|s0 t0 c0 H0 H1 H2 E0|s0 t0 c0 H0 H1 H2 E0|s0 t0 c0 H0 E0|s0 H0 E0|s0 t0 H0 E0]; try (destruct s0; discriminate E0).
    inversion E' as [F0|s1 t1 c1 J0 J1 J2 F0|s1 t1 c1 J0 J1 J2 F0|s1 t1 c1 J0 F0|s1 J0 F0|s1 t1 J0 F0]; try (destruct s1; discriminate F0). reflexivity.
  - assert (X8 : plain_char x08 -> False) by (intro P; apply P; cbn; auto).
    assert (X15 : plain_char x15 -> False) by (intro P; apply P; cbn; auto).
    assert (NC : forall (l : bytes) x, l ++ [x] = [] -> False) by (intros l x Q; destruct l; discriminate Q).
    inversion E as [E0|s0 t0 c0 H0 H1 H2 E0|s0 t0 c0 H0 H1 H2 E0|s0 t0 c0 H0 E0|s0 H0 E0|s0 t0 H0 E0]; try (exfalso; destruct s; discriminate E0); apply app_inj_tail in E0 as [E1 E2]; subst;
    (inversion E' as [F0|s1 t1 c1 J0 J1 J2 F0|s1 t1 c1 J0 J1 J2 F0|s1 t1 c1 J0 F0|s1 J0 F0|s1 t1 J0 F0]; try (exfalso; destruct s; discriminate F0); apply app_inj_tail in F0 as [F2 F1]; subst;
     try discriminate F1; try (exfalso; auto; fail);
     try (pose proof (IH _ _ H0 J0) as Q; try subst; try reflexivity; try lia; try (apply app_inj_tail in Q as [-> _]; reflexivity); try (exfalso; eapply NC; eauto; fail))).
Qed.
Lemma plain_no_nl s t : edits s t -> ~ In x0a s.
Proof.
  induction 1 as [|s t c _ IH P L|s t c _ IH P L|s t c _ IH|s _ IH|s t _ IH]; [intros []| | | | |]; intro I; apply in_app_iff in I as [I|[I|[]]]; auto; try discriminate I; subst; apply P; cbn; auto.
Qed.
Lemma entered_fun i pw pw' : entered i pw -> entered i pw' -> pw = pw'.
Proof.
  intros (s & r & E & R & ED) (s' & r' & E' & R' & ED').
  assert (s = s'); [|subst s'; eapply edits_fun; eauto].
  pose proof (plain_no_nl _ _ ED) as N. pose proof (plain_no_nl _ _ ED') as N'. rewrite E in E'. clear - E' R R' N N'.
  revert s' E' N'. induction s as [|c s IH]; intros [|c' s'] E' N'; cbn [app] in E'; auto.
  - destruct R as [->|(q & ->)]; [discriminate|]. injection E' as <- _. exfalso. apply N'. left. reflexivity.
  - destruct R' as [->|(q & ->)]; [discriminate|]. injection E' as -> _. exfalso. apply N. left. reflexivity.
  - injection E' as <- E'. f_equal. apply IH; auto; intro I; [apply N|apply N']; right; auto.
Qed.
Lemma prompt_iff server i k : no_nul i -> (forall a r, i = a ++ x03 :: r -> In x0a a) ->
  (get_key server (KPrompt (Some i)) = Ok (Some k) <-> entered i k).
Proof.
  intros N C. pose proof (prompt_entered i N C) as E. cbn [get_key]. split.
  - intro Q. injection Q as <-. exact E.
  - intro Q. rewrite (entered_fun _ _ _ Q E). reflexivity.
Qed.

(** ** Key files *)
Lemma key_entry_fun server l k k' : server_name server -> key_entry server l k -> key_entry server l k' -> k = k'.
Proof.
  intros SN (s1 & s2 & E & F1 & F2 & O) (t1 & t2 & E' & G1 & G2 & O'). destruct (named_hd server SN) as (c0 & r0 & SE & NS & _).
  assert (A : skip_sep l = server ++ [":"%byte] ++ s2 ++ k) by (rewrite E; apply skip_sep_app; auto; right; rewrite SE; exact NS).
  assert (B : skip_sep l = server ++ [":"%byte] ++ t2 ++ k') by (rewrite E'; apply skip_sep_app; auto; right; rewrite SE; exact NS).
  rewrite A in B. apply app_inv_head in B. injection B as B.
  rewrite <- (skip_sep_app s2 k F2 O), <- (skip_sep_app t2 k' G2 O'), B. reflexivity.
Qed.
Lemma file_key_fun server lines k k' : server_name server -> file_key server lines k -> file_key server lines k' -> k = k'.
Proof.
  intros SN (p & l & q & E & K & N) (p' & l' & q' & E' & K' & N').
  assert (l = l'); [|subst l'; eapply key_entry_fun; eauto].
  rewrite E in E'. clear E lines. revert p' E'. induction p as [|x p IH]; intros [|x' p'] E'; cbn [app] in E'.
  - injection E' as -> _. reflexivity.
  - injection E' as <- ->. exfalso. apply (N l' k'); auto. apply in_or_app. right. left. reflexivity.
  - injection E' as -> <-. exfalso. apply (N' l k); auto. apply in_or_app. right. left. reflexivity.
  - injection E' as -> E'. eauto.
Qed.
Lemma key_line_short server line : server_name server -> zlen line <= 512 -> exists r, key_line server line = Ok r /\ forall k, r = Some k -> zlen k <= zlen line.
Proof.
  intros (_ & SL & _) L. unfold key_line. destruct (skip_sep_split line) as (a & E & _). destruct (skip_sep line) as [|c l] eqn:SK; [eexists; split; [reflexivity|discriminate]|].
  destruct (_ || beq c x0a || beq c x0d); [eexists; split; [reflexivity|discriminate]|].
  destruct (zlen line - zlen (c :: l) + zlen server >? LINE_LEN) eqn:G. { unfold LINE_LEN in G. pose proof (zlen_nonneg (c :: l)). lia. }
  destruct (negb _); [eexists; split; [reflexivity|discriminate]|].
  destruct (zdrop (zlen server) (c :: l)) as [|d r] eqn:D; [eexists; split; [reflexivity|discriminate]|].
  destruct (beq d ":"%byte); [|eexists; split; [reflexivity|discriminate]]. eexists. split; [reflexivity|]. intros k Q. injection Q as <-.
  destruct (skip_sep_split r) as (a2 & E2 & _).
  assert (A1 : zlen (up_to_nl (skip_sep r)) <= zlen (skip_sep r)).
  { unfold up_to_nl. destruct (strchr x0a (skip_sep r)) as [q|]; [|lia]. unfold ztake, zlen. rewrite firstn_length. lia. }
  assert (A2 : zlen (skip_sep r) <= zlen r) by (rewrite E2 at 2; rewrite zlen_app; pose proof (zlen_nonneg a2); lia).
  assert (A3 : zlen (d :: r) <= zlen (c :: l)).
  { rewrite <- D. unfold zdrop, zlen. rewrite skipn_length. lia. }
  assert (A4 : zlen (c :: l) <= zlen line) by (rewrite E, zlen_app; pose proof (zlen_nonneg a); lia).
  rewrite zlen_cons in A3. lia.
Qed.
Lemma key_lines_short server : server_name server -> forall ls k0, Forall (fun l => zlen l <= 128) ls -> exists k, key_file_lines server ls k0 = Ok k.
Proof.
  intros SN ls. induction ls as [|l ls IH]; intros k0 F; cbn [key_file_lines]; [eauto|]. pose proof (Forall_inv F) as L. cbn beta in L. apply Forall_inv_tail in F.
  destruct (key_line_short server l SN ltac:(lia)) as (r & -> & B). destruct r as [k|]; [|auto].
  specialize (B k eq_refl). destruct (zlen k >? MAX_KEY_LEN) eqn:G; [unfold MAX_KEY_LEN in G; lia|auto].
Qed.
Lemma file_iff server lines k : server_name server -> Forall (fun l => ~ In x0a l /\ no_nul l /\ zlen l <= 127) lines ->
  (get_key server (KFile (Some (file lines))) = Ok (Some k) <-> file_key server lines k /\ k <> []).
Proof.
  intros SN F. assert (LO : Forall line_ok lines). { eapply Forall_impl; [|exact F]. intros l (A & B & C). split; auto. split; auto. lia. }
  cbn [get_key get_key_file]. rewrite file_lines_nl by auto.
  assert (SH : forall ls, Forall (fun l => ~ In x0a l /\ no_nul l /\ zlen l <= 127) ls -> Forall (fun l => zlen l <= 128) (nl_lines ls)).
  { induction 1 as [|l ls (A & B & C) G IH]; [constructor|]. cbn [nl_lines]. destruct ls as [|l2 ls].
    - destruct l; constructor; [lia|constructor].
    - constructor; [|exact IH]. rewrite zlen_app. change (zlen [x0a]) with 1. lia. }
  destruct (key_lines_short server SN (nl_lines lines) [] (SH _ F)) as (k1 & E). rewrite E.
  destruct (key_lines_spec server lines SN LO [] k1 E) as [K|(-> & NK)].
  - split.
    + destruct k1; [discriminate|]. intro Q. injection Q as <-. split; [auto|discriminate].
    + intros [K' NE]. rewrite (file_key_fun server lines k k1 SN K' K) in *. destruct k1; [congruence|reflexivity].
  - split; [discriminate|]. intros [(p & l & q & -> & KE & _) _]. exfalso. apply (NK l k); auto. apply in_or_app. right. left. reflexivity.
Qed.

(** ** No access requested *)
Lemma no_access H v o h : options_ok o -> world_ok v -> (o_nat_rand o = true -> v_seed v 1%nat = true) -> o_access o = [] -> o_command o = [] ->
  make_packet H v o <> Ok (Some h).
Proof.
  intros OK WO SEED NA NC E. unfold make_packet in E. apply sbind_ok in E as (h0 & E & _).
  destruct (build_ok H v o h0 OK WO SEED E) as (r & u & tm & ty & msg & na & to & dt & mo & _ & B).
  destruct (bu_msg _ _ _ _ _ _ _ _ _ _ _ B) as (t & -> & _ & _ & M). rewrite NC in M. destruct M as [(c & PC & W) (ip & items & a & b & c' & d & EQ & NI & IP & _ & F)].
  assert (t = []).
  { destruct c as [n|]; [|congruence]. destruct W as (proto & port & ds & EA & _). rewrite NA in EA. destruct proto; discriminate EA. }
  subst t. destruct items as [|it items]; [congruence|].
  assert (Q : o_ip o ++ [","%byte] ++ [] = ip ++ [","%byte] ++ join [","%byte] (it :: items)) by exact EQ.
  apply cut_at in Q as [_ Q]; [|apply (ok_ip o OK)|eapply ip_comma; eauto].
  destruct (Forall_inv F) as (p & ds & P & -> & _). destruct items; destruct P as [-> | ->]; discriminate Q.
Qed.
