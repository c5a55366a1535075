(** Proofs about the daemon with an iptables without -C: the port a NAT rule sends to. *)
From Verif Require Import Bytes M_util M_message M_codec M_access M_cycle M_incoming M_packet M_fw M_extcmd
  S_text S_access S_fw S_extcmd P_bytes P_util P_util2 P_access P_fw P_fw2 P_fw3 P_fw4 P_fw5 P_fw6 P_fw7 P_fw8 P_extcmd P_firewd4 P_incoming3 P_incoming5 P_resolve M_old S_old P_old.
From Coq Require Import Init.Byte List ZArith Bool Lia.
Import ListNotations.
Open Scope Z_scope.

Lemma digits_no c ds : all_digits ds -> ~ digit c -> ~ In c ds.
Proof. intros A N I. unfold all_digits in A. rewrite Forall_forall in A. exact (N (A _ I)). Qed.
Lemma colon_nd : ~ digit ":"%byte. Proof. intros [A B]. vm_compute in A, B. first [now apply A | now apply B]. Qed.
Lemma blank_nd : ~ digit " "%byte. Proof. intros [A B]. vm_compute in A, B. first [now apply A | now apply B]. Qed.
Lemma zero_nd : ~ digit x00. Proof. intros [A B]. vm_compute in A, B. first [now apply A | now apply B]. Qed.

Lemma one_split (c : byte) a b u v : ~ In c a -> ~ In c b -> a ++ c :: b = u ++ c :: v -> u = a /\ v = b.
Proof.
  revert u. induction a as [|d a IH]; intros [|k u] NA NB E.
  - injection E as ->. auto.
  - exfalso. injection E as _ ->. apply NB, in_or_app. right. left. reflexivity.
  - exfalso. injection E as -> _. apply NA. left. reflexivity.
  - injection E as -> E. destruct (IH u) as (-> & ->); auto. intro I. apply NA. right. exact I.
Qed.
Definition stops (s : bytes) : Prop := match s with [] => True | c :: _ => ~ digit c end.
Lemma digits_split x y u v : all_digits x -> all_digits y -> stops u -> stops v -> x ++ u = y ++ v -> x = y.
Proof.
  revert y. induction x as [|c x IH]; intros [|d y] A B SU SV E; [reflexivity| | |].
  - exfalso. cbn in E. subst u. inversion B; subst. apply SU. assumption.
  - exfalso. cbn in E. subst v. inversion A; subst. apply SV. assumption.
  - injection E as -> E. inversion A; inversion B; subst. f_equal. eauto.
Qed.
Lemma ends_stops c : beq c x00 || beq c " "%byte = true -> ~ digit c.
Proof. intro H. apply orb_true_iff in H as [H|H]; apply beq_eq in H; subst c; [apply zero_nd|apply blank_nd]. Qed.

Lemma nat_port_spec ip n to line : 0 <= n -> 0 <= to <= 65535 -> sends_to ip n line -> nat_port_matches to line = true <-> n = to.
Proof.
  intros HN HT (a & x & post & -> & NX & N1 & N2 & NI & NP & EP).
  assert (NT : numeral to (dec to)) by (apply dec_num; lia). assert (LT : zlen (dec to) <= 5) by (apply dec_len5; lia).
  assert (DX : all_digits x) by apply NX. assert (DT : all_digits (dec to)) by apply NT.
  assert (SP : stops post). { destruct EP as [-> |(y & ->)]; [exact I|apply blank_nd]. }
  unfold nat_port_matches. rewrite (strstr_first ($ " to:") a (ip ++ [":"%byte] ++ x ++ post)); [|intros u v Q; apply N1; exists u, v; exact Q|discriminate].
  change (skipn 4 ($ " to:" ++ ip ++ [":"%byte] ++ x ++ post)) with (ip ++ [":"%byte] ++ x ++ post).
  destruct (has_text ($ " to:") (ip ++ [":"%byte] ++ x ++ post)) eqn:HT2; [apply has_holds in HT2; contradiction|].
  rewrite fmt_id by (rewrite zlen_app; change (zlen ($ ":")) with 1; lia).
  assert (NC : ~ In ":"%byte (x ++ post)). { intro I0. apply in_app_or in I0 as [I0|I0]; [exact (digits_no _ _ DX colon_nd I0)|auto]. }
  destruct (strstr (fun b => b) ($ ":" ++ dec to) (ip ++ [":"%byte] ++ x ++ post)) as [r|] eqn:S.
  - apply strstr_some in S as (u & h & v & E & -> & M & _). rewrite map_id in M. subst h.
    rewrite <- app_assoc in E. cbn [app] in E. change ($ ":" ++ dec to ++ v) with (":"%byte :: dec to ++ v) in E.
    destruct (one_split _ _ _ _ _ NI NC E) as (_ & E2).
    rewrite skipn_app, skipn_all, Nat.sub_diag. cbn [app skipn]. split.
    + intro H0. assert (SV : stops v) by (destruct v as [|c v]; [exact Logic.I|apply ends_stops; exact H0]).
      assert (Q : dec to = x) by (apply (digits_split (dec to) x v post DT DX SV SP); exact E2). destruct NX as (_ & _ & B & _), NT as (_ & _ & C & _). rewrite Q in C. congruence.
    + intros <-. assert (x = dec n) as -> by (apply (numeral_unique n); auto). apply app_inv_head in E2. subst v.
      destruct EP as [-> |(y & ->)]; reflexivity.
  - split; [discriminate|]. intros <-. exfalso. assert (x = dec n) as -> by (apply (numeral_unique n); auto).
    eapply (strstr_none _ _ _ S ip ($ ":" ++ dec n) post); [rewrite <- app_assoc; reflexivity|apply map_id].
Qed.

Lemma nat_listed proto port e src target dst ip0 ip to n out lines l :
  0 <= proto <= 255 -> 0 <= port <= 65535 -> 0 <= e < 4294967296 -> zlen src <= 15 -> zlen target <= 100 -> zlen ip0 <= 15 ->
  0 < to <= 65535 -> 0 <= n ->
  text_lines out lines -> first_with e l lines -> sends_to ip n l ->
  rule_listed (mkWant proto (Some src) dst port (Some ip0) to e target) out = true <-> tells src None proto port e target l /\ n = to /\ (dst <> None -> holds ($ " to:" ++ ip0) l).
Proof.
  intros HP HQ HE LS LT LI HT HN TL (before & after & x & -> & PL & L4 & NX & HX & NB) ST.
  assert (x = dec e) as -> by (apply (numeral_unique e); [lia|exact NX|apply dec_num; lia]).
  destruct (exp_search proto port e HP HQ HE) as (E1 & E2 & E3). unfold rule_listed. cbn [q_exp q_nat_port]. rewrite E1.
  rewrite (search_first (dec e ++ $ " ") CMD_BUFSIZE out before l after) by (auto; change CMD_BUFSIZE with 256; lia).
  assert (l <> []). { intros ->. destruct HX as (u & v & HO). destruct u; [|discriminate]. destruct (dec e); discriminate. }
  rewrite chop_last by assumption. pose proof (zlen_nonneg before). rewrite (proj2 (Z.eqb_neq (zlen before + 1) 0)) by lia. cbn [negb andb].
  rewrite (proj2 (Z.eqb_neq to 0)) by lia. cbn [orb]. rewrite andb_true_iff, (nat_port_spec ip n to l) by (auto; lia).
  assert (Q : line_matches (mkWant proto (Some src) dst port (Some ip0) to e target) l = true <->
    line_matches (plain_want proto src None port e target) l = true /\ (dst <> None -> holds ($ " to:" ++ ip0) l)).
  { unfold line_matches, plain_want, dstip_search. cbn [q_proto q_src q_dst q_port q_nat q_nat_port q_exp q_target].
    assert (has_text [] l = true) as -> by (apply has_holds; exists [], l; reflexivity).
    rewrite (fmt_id ($ " to:" ++ ip0)) by (rewrite zlen_app; change (zlen ($ " to:")) with 4; lia).
    rewrite !andb_true_iff. destruct dst as [d0|].
    - rewrite (has_holds ($ " to:" ++ ip0) l). assert (Some d0 <> None) by discriminate. tauto.
    - assert (@None bytes <> None -> holds ($ " to:" ++ ip0) l) by congruence. tauto. }
  rewrite Q, (matches_tells proto port e src target None HP HQ HE LS LT Logic.I l HX). tauto.
Qed.
