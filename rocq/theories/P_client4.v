(** Proofs about the client: the keys. *)
From Verif Require Import Bytes M_base64 M_util M_message M_codec M_cipher M_ctx M_conf M_accfile M_client S_base64 S_text S_codec S_cipher S_ctx S_conf S_cycle S_client
  P_bytes P_base64 P_util P_util2 P_message P_codec P_conf P_replay P_ctx3 P_accfile2.
From Coq Require Import Init.Byte List ZArith Bool Lia.
Import ListNotations.
Open Scope Z_scope.

Local Ltac ands := repeat match goal with |- _ /\ _ => split end.

(** ** Passwords *)
Definition text_of (acc : bytes) : bytes := rev acc.
Lemma read_password_edits s : forall done acc, edits done (rev acc) -> zlen acc <= 127 ->
  (forall a r, s = a ++ x03 :: r -> In x0a a) ->
  exists x rest, s = x ++ rest /\ (rest = [] \/ exists r, rest = x0a :: r) /\ edits (done ++ x) (read_password s acc).
Proof.
  induction s as [|c s IH]; intros done acc ED LA NC.
  - exists [], []. ands; auto. rewrite app_nil_r. exact ED.
  - cbn [read_password]. destruct (Z.eqb_spec (bv c) 10) as [E|N10].
    { assert (c = x0a) by (rewrite <- (zb_bv c), E; reflexivity). subst c. exists [], (x0a :: s). ands; eauto. rewrite app_nil_r. exact ED. }
    assert (NC' : forall a r, s = a ++ x03 :: r -> In x0a a).
    { intros a r ->. specialize (NC (c :: a) r eq_refl). destruct NC as [->|I]; auto. exfalso. apply N10. reflexivity. }
    destruct (Z.eqb_spec (bv c) 3) as [E|N3].
    { assert (c = x03) by (rewrite <- (zb_bv c), E; reflexivity). subst c. destruct (NC [] s eq_refl). }
    assert (K : forall acc', edits (done ++ [c]) (rev acc') -> zlen acc' <= 127 -> exists x rest, c :: s = x ++ rest /\ (rest = [] \/ exists r, rest = x0a :: r) /\
      edits (done ++ x) (read_password s acc')).
    { intros acc' ED' L'. destruct (IH _ _ ED' L' NC') as (x & rest & -> & R & EX). exists (c :: x), rest. ands; auto.
      rewrite <- app_assoc in EX. exact EX. }
    destruct (Z.eqb_spec (bv c) 8) as [E|N8].
    { assert (c = x08) by (rewrite <- (zb_bv c), E; reflexivity). subst c. apply K.
      - destruct acc as [|a acc]; cbn [tl rev] in *; [apply ed_back_none; exact ED|]. eapply ed_back. exact ED.
      - destruct acc; cbn [tl]; rewrite ?zlen_cons in *; lia. }
    destruct (Z.eqb_spec (bv c) 21) as [E|N21].
    { assert (c = x15) by (rewrite <- (zb_bv c), E; reflexivity). subst c. apply K; [|rewrite zlen_nil; lia]. cbn [rev]. eapply ed_kill. exact ED. }
    assert (PC : plain_char c) by (unfold plain_char; cbn [In]; intuition congruence).
    assert (LR : zlen (rev acc) = zlen acc) by (unfold zlen; rewrite rev_length; reflexivity).
    unfold PW_BUFSIZE. destruct (Z.ltb_spec (zlen acc) (128 - 1)) as [L|L].
    + apply K; [cbn [rev]; apply ed_char; auto; lia|rewrite zlen_cons; lia].
    + apply K; [apply ed_full; auto; lia|lia].
Qed.
Lemma read_password_len s : forall acc, zlen acc <= 127 -> zlen (read_password s acc) <= 127.
Proof.
  induction s as [|c s IH]; intros acc L; cbn [read_password]; [unfold zlen in *; rewrite rev_length; exact L|].
  destruct (_ =? 10); [unfold zlen in *; rewrite rev_length; exact L|]. destruct (_ =? 3); [rewrite zlen_nil; lia|].
  destruct (_ =? 8). { apply IH. destruct acc; cbn [tl]; rewrite ?zlen_cons in *; lia. }
  destruct (_ =? 21); [apply IH; rewrite zlen_nil; lia|]. unfold PW_BUFSIZE. destruct (Z.ltb_spec (zlen acc) (128 - 1)); apply IH; rewrite ?zlen_cons; lia.
Qed.
Lemma read_password_no_nul s : forall acc, no_nul s -> no_nul acc -> no_nul (read_password s acc).
Proof.
  assert (NR : forall l : bytes, no_nul l -> no_nul (rev l)) by (intros l N I; apply in_rev in I; auto).
  induction s as [|c s IH]; intros acc NS NA; cbn [read_password]; auto. apply no_nul_cons in NS as [NC NS].
  destruct (_ =? 10); auto. destruct (_ =? 3); [apply no_nul_nil|].
  destruct (_ =? 8). { apply IH; auto. destruct acc as [|a acc]; cbn [tl]; auto. apply no_nul_cons in NA. tauto. }
  destruct (_ =? 21); [apply IH; auto; apply no_nul_nil|]. destruct (_ <? _); apply IH; auto. apply no_nul_cons. auto.
Qed.
Lemma prompt_entered s : no_nul s -> (forall a r, s = a ++ x03 :: r -> In x0a a) -> entered s (cstr (read_password s [])).
Proof.
  intros N C. rewrite cstr_id by (apply read_password_no_nul; auto; apply no_nul_nil).
  destruct (read_password_edits s [] [] ed_none ltac:(rewrite zlen_nil; lia) C) as (x & rest & E & R & ED). exists x, rest. auto.
Qed.

(** ** Key files *)
Lemma separator_b c : beq c " "%byte || beq c x09 || beq c "="%byte = true <-> separator c.
Proof.
  unfold separator. rewrite !orb_true_iff. split.
  - intros [[E|E]|E]; apply beq_eq in E; auto.
  - intros [->|[->|E]]; [left; left|left; right|right; rewrite E]; apply beq_refl.
Qed.
Lemma skip_sep_split s : exists a, s = a ++ skip_sep s /\ Forall separator a /\ (skip_sep s = [] \/ ~ separator (hd x00 (skip_sep s))).
Proof.
  induction s as [|c s (a & E & F & O)]; [exists []; ands; auto|]. cbn [skip_sep]. destruct (_ || _) eqn:B.
  - apply separator_b in B. exists (c :: a). ands; auto. cbn. congruence.
  - exists []. ands; auto. right. cbn [hd]. rewrite <- separator_b. congruence.
Qed.
Lemma skip_sep_app a s : Forall separator a -> (s = [] \/ ~ separator (hd x00 s)) -> skip_sep (a ++ s) = s.
Proof.
  induction 1 as [|c a SC _ IH]; intro O; cbn [app skip_sep].
  - destruct O as [->|O]; [reflexivity|]. destruct s as [|c s]; [reflexivity|]. cbn [skip_sep hd] in *. rewrite <- separator_b in O. destruct (_ || _); [exfalso; auto|reflexivity].
  - apply separator_b in SC. rewrite SC. auto.
Qed.
Lemma strchr_app k c r : ~ In c k -> strchr c (k ++ c :: r) = Some (c :: r).
Proof.
  induction k as [|x k IH]; intro N; cbn [app strchr]; [rewrite beq_refl; reflexivity|].
  destruct (beq_spec x c) as [->|]; [exfalso; apply N; left; auto|]. apply IH. intro; apply N; right; auto.
Qed.
Definition ends_line (e : bytes) : Prop := e = [] \/ e = [x0a].
Lemma up_to_nl_app k e : ~ In x0a k -> ends_line e -> up_to_nl (k ++ e) = k.
Proof.
  intros N [->| ->]; unfold up_to_nl.
  - rewrite app_nil_r, strchr_none by auto. reflexivity.
  - rewrite strchr_app by auto. apply ztake_app. rewrite zlen_app. lia.
Qed.
Lemma skip_sep_end a e : Forall separator a -> ends_line e -> skip_sep (a ++ e) = e.
Proof.
  intros F [->| ->]; apply skip_sep_app; auto. right. cbn [hd]. unfold separator. intros [X|[X|X]]; discriminate.
Qed.

Lemma named_hd server : server_name server -> exists c r, server = c :: r /\ ~ separator c /\ memb c ($ "#;") || beq c x0a || beq c x0d = false.
Proof.
  intros (_ & _ & NE & L). destruct server as [|c r]; [contradiction|]. exists c, r. cbn [hd] in L. ands; auto.
  - intro S. unfold letter_or_digit, digit in L. destruct S as [->|[->|E]]; [vm_compute in L|vm_compute in L|subst c; vm_compute in L]; intuition congruence.
  - destruct (_ || _) eqn:B; auto. exfalso. rewrite !orb_true_iff in B. unfold letter_or_digit, digit in L.
    destruct B as [[B|B]|B]; [apply memb_In in B; cbn [In str] in B|apply beq_eq in B|apply beq_eq in B].
    + destruct B as [B|[B|[]]]; subst c; vm_compute in L; intuition congruence.
    + subst c; vm_compute in L; intuition congruence.
    + subst c; vm_compute in L; intuition congruence.
Qed.

Lemma key_line_entry server l e k : server_name server -> ~ In x0a l -> ends_line e ->
  key_line server (l ++ e) <> Fault -> (key_line server (l ++ e) = Ok (Some k) <-> key_entry server l k).
Proof.
  intros SN NL EE NF. destruct (named_hd server SN) as (c0 & r0 & SE & NS & NCM). split.
  - (* what is found is an entry *)
    clear NCM. intro E. unfold key_line in E. destruct (skip_sep_split l) as (s1 & EL & F1 & O1).
    set (l1 := skip_sep l) in *.
    assert (SK : skip_sep (l ++ e) = l1 ++ e).
    { rewrite EL, <- app_assoc. destruct l1 as [|c l1']; [apply skip_sep_end; auto|]. apply skip_sep_app; auto. right. destruct O1 as [O1|O1]; [discriminate|]. exact O1. }
    cbv zeta in E. rewrite SK in E. destruct (l1 ++ e) as [|c x] eqn:EX; [discriminate|].
    destruct (_ || _) eqn:CM; [discriminate|]. destruct (_ >? LINE_LEN); [discriminate|].
    destruct (is_prefix server (c :: x)) eqn:PF; cbn [negb] in E; [|discriminate].
    apply is_prefix_app in PF as (y & PF). rewrite PF in E. rewrite zdrop_app in E by reflexivity.
    destruct y as [|d y]; [discriminate|]. destruct (beq_spec d ":"%byte) as [->|]; [|discriminate]. injection E as E.
    (* l1 ++ e = server ++ : y *)
    rewrite <- EX in PF. clear EX CM SK c x.
    assert (YE : exists y', y = y' ++ e /\ l1 = server ++ ":"%byte :: y').
    { destruct EE as [->| ->].
      - exists y. rewrite app_nil_r in *. auto.
      - destruct (list_eq_dec Byte.byte_eq_dec y []) as [->|NY].
        + exfalso. assert (X : last (l1 ++ [x0a]) x00 = last (server ++ [":"%byte]) x00) by (f_equal; exact PF). rewrite !last_last in X. discriminate.
        + destruct (exists_last NY) as (y' & z & ->). exists y'.
          assert (X : l1 ++ [x0a] = (server ++ ":"%byte :: y') ++ [z]) by (rewrite PF, <- app_assoc; reflexivity).
          apply app_inj_tail in X as [-> <-]. auto. }
    destruct YE as (y' & -> & L1E). destruct (skip_sep_split y') as (s2 & EY & F2 & O2). set (k1 := skip_sep y') in *.
    assert (NK : ~ In x0a k1). { intro I. apply NL. rewrite EL, L1E, EY. rewrite !in_app_iff. cbn [In]. rewrite in_app_iff. tauto. }
    assert (SK2 : skip_sep (y' ++ e) = k1 ++ e).
    { rewrite EY, <- app_assoc. destruct k1 as [|c k1']; [apply skip_sep_end; auto|]. apply skip_sep_app; auto. right. destruct O2 as [O2|O2]; [discriminate|]. exact O2. }
    rewrite SK2, up_to_nl_app in E by auto. exists s1, s2. rewrite <- E. ands; auto. rewrite EL, L1E, EY. reflexivity.
  - (* an entry is found *)
    intros (s1 & s2 & EL & F1 & F2 & O). revert NF. unfold key_line. cbv zeta.
    assert (SK : skip_sep (l ++ e) = server ++ ":"%byte :: s2 ++ k ++ e).
    { replace (l ++ e) with (s1 ++ (server ++ ":"%byte :: s2 ++ k ++ e)) by (rewrite EL; repeat (rewrite <- app_assoc; cbn [app]); reflexivity).
      apply skip_sep_app; [auto|right; rewrite SE; exact NS]. }
    rewrite SK. assert (HD : exists x, server ++ ":"%byte :: s2 ++ k ++ e = c0 :: x) by (rewrite SE; eexists; reflexivity).
    destruct HD as (x & HD). rewrite HD. rewrite NCM. destruct (_ >? LINE_LEN); [congruence|]. intros _. rewrite <- HD.
    rewrite (proj2 (is_prefix_app server _)) by eauto. cbn [negb]. rewrite zdrop_app by reflexivity. rewrite beq_refl.
    assert (NK : ~ In x0a k). { intro I. apply NL. rewrite EL. rewrite !in_app_iff. tauto. }
    assert (SK2 : skip_sep (s2 ++ k ++ e) = k ++ e).
    { destruct k as [|c k']; [apply skip_sep_end; auto|]. apply skip_sep_app; auto. right. destruct O as [O|O]; [discriminate|]. exact O. }
    rewrite SK2, up_to_nl_app by auto. reflexivity.
Qed.

(** The lines that are read from a file *)
Fixpoint nl_lines (ls : list bytes) : list bytes :=
  match ls with
  | [] => []
  | [l] => match l with [] => [] | _ => [l] end
  | l :: r => (l ++ [x0a]) :: nl_lines r
  end.
Lemma file_lines_nl lines : Forall line_ok lines -> file_lines (file lines) = nl_lines lines.
Proof.
  intro LO. unfold file_lines. generalize (le_n (length (file lines))). generalize (length (file lines)) at 2 3 as fuel.
  assert (ZL : forall w : bytes, zlen w <= 1022 -> (length w < Z.to_nat (M_access.MAX_LINE_LEN - 1))%nat)
    by (intros w; unfold zlen, M_access.MAX_LINE_LEN; lia).
  induction LO as [|l lines (NL & N0 & LE) _ IH]; intros fuel LF.
  - destruct fuel; reflexivity.
  - unfold file in *. destruct lines as [|l2 lines].
    + cbn [join nl_lines] in *. destruct fuel as [|fuel].
      * destruct l; [|cbn in LF; lia]. reflexivity.
      * destruct l as [|c l]; [reflexivity|]. cbn [lines_of].
        rewrite fgets_all; [|auto|apply Nat.lt_le_incl, ZL; exact LE].
        rewrite cstr_id by auto. replace (lines_of fuel []) with (@nil bytes) by (destruct fuel; reflexivity). reflexivity.
    + change (join [x0a] (l :: l2 :: lines)) with (l ++ [x0a] ++ join [x0a] (l2 :: lines)) in *.
      assert (LB : (length (l ++ [x0a] ++ join [x0a] (l2 :: lines)) = length l + S (length (join [x0a] (l2 :: lines))))%nat)
        by (rewrite !app_length; reflexivity).
      destruct fuel as [|fuel]; [lia|].
      assert (NE : exists c t, l ++ [x0a] ++ join [x0a] (l2 :: lines) = c :: t) by (destruct l; eexists; eexists; reflexivity).
      destruct NE as (c & t & NE). cbn [lines_of]. rewrite NE. cbv iota. rewrite <- NE.
      cbn [app]. rewrite (P_replay.fgets_line _ l (join [x0a] (l2 :: lines))).
      2: { apply Forall_forall. intros x I ->. auto. }
      2: { apply ZL; auto. }
      assert (CS : cstr (l ++ [x0a]) = l ++ [x0a]).
      { apply cstr_id. rewrite in_app_iff. intros [I|[I|[]]]; [auto|discriminate]. }
      rewrite CS. rewrite IH by lia. reflexivity.
Qed.

Lemma key_entry_nil server k : server_name server -> ~ key_entry server [] k.
Proof.
  intros (_ & _ & NE & _) (s1 & s2 & E & _). destruct s1; [|discriminate]. destruct server; [contradiction|discriminate].
Qed.
Lemma key_lines_spec server lines : server_name server -> Forall line_ok lines -> forall k0 k,
  key_file_lines server (nl_lines lines) k0 = Ok k ->
  file_key server lines k \/ (k = k0 /\ forall l' k', In l' lines -> ~ key_entry server l' k').
Proof.
  intros SN LO. assert (STEP : forall l e rest k0 k, ~ In x0a l -> ends_line e -> key_file_lines server ((l ++ e) :: rest) k0 = Ok k ->
    (exists k1, key_entry server l k1 /\ key_file_lines server rest k1 = Ok k) \/ ((forall k', ~ key_entry server l k') /\ key_file_lines server rest k0 = Ok k)).
  { intros l e rest k0 k NL EE. cbn [key_file_lines].
    destruct (key_line server (l ++ e)) as [[k1|]|] eqn:KL; [| |discriminate].
    - destruct (_ >? _); [discriminate|]. intro E. left. exists k1. split; auto. apply (key_line_entry server l e); auto. congruence.
    - intro E. right. split; auto. intros k' KE. apply (key_line_entry server l e k' SN NL EE) in KE; congruence. }
  induction LO as [|l lines (NL & N0 & LE) LO IH]; intros k0 k E.
  - cbn in E. injection E as <-. right. split; auto.
  - assert (TAIL : forall k1, key_entry server l k1 -> file_key server lines k \/ (k = k1 /\ forall l' k', In l' lines -> ~ key_entry server l' k') -> file_key server (l :: lines) k).
    { intros k1 KE [(pre & l2 & post & -> & K & P)|(-> & NP)].
      - exists (l :: pre), l2, post. auto.
      - exists [], l, lines. auto. }
    assert (TAIL2 : (forall k', ~ key_entry server l k') -> file_key server lines k \/ (k = k0 /\ forall l' k', In l' lines -> ~ key_entry server l' k') ->
      file_key server (l :: lines) k \/ (k = k0 /\ forall l' k', In l' (l :: lines) -> ~ key_entry server l' k')).
    { intros NK [(pre & l2 & post & -> & K & P)|(-> & NP)].
      - left. exists (l :: pre), l2, post. auto.
      - right. split; auto. intros l' k' [<-|I]; eauto. }
    destruct lines as [|l2 lines].
    + cbn [nl_lines] in E. destruct l as [|c l].
      * cbn in E. injection E as <-. right. split; auto. intros l' k' [<-|[]]. apply key_entry_nil; auto.
      * destruct (STEP (c :: l) [] [] k0 k NL (or_introl eq_refl)) as [(k1 & KE & E')|(NK & E')].
        { rewrite app_nil_r. exact E. }
        -- left. apply (TAIL k1 KE). right. cbn in E'. injection E' as <-. split; auto.
        -- apply TAIL2; [exact NK|]. right. cbn in E'. injection E' as <-. split; auto.
    + change (nl_lines (l :: l2 :: lines)) with ((l ++ [x0a]) :: nl_lines (l2 :: lines)) in E.
      destruct (STEP l [x0a] _ k0 k NL (or_intror eq_refl) E) as [(k1 & KE & E')|(NK & E')].
      * left. apply (TAIL k1 KE). apply IH; auto.
      * apply TAIL2; auto.
Qed.

(** ** All sources *)
Lemma text_decode k : b64_decode (b64_text k) = Some k.
Proof. rewrite <- P_ctx3.strip_text. apply b64_round_trip_stripped. Qed.
Lemma decode_key_from server t k : decode_key t = Ok (Some k) -> key_from server (KBase64 t) k.
Proof.
  unfold decode_key. destruct (_ >? _); [discriminate|]. intros E b [->| ->]; rewrite ?rfc_decode, ?text_decode in E; injection E as ->; reflexivity.
Qed.
Lemma file_key_from server f k : server_name server -> get_key_file server f = Ok (Some k) -> key_from server (KFile f) k /\ 1 <= zlen k <= 128.
Proof.
  intros SN E. unfold get_key_file in E. destruct f as [text|]; [|discriminate].
  destruct (key_file_lines server (file_lines text) []) as [k1|] eqn:K; [|discriminate].
  assert (KE : k1 = k /\ k <> []) by (destruct k1; [discriminate|]; injection E as <-; split; [reflexivity|discriminate]).
  destruct KE as [-> KN]. clear E. split.
  - exists text. split; auto. intros lines -> LO. rewrite file_lines_nl in K by auto.
    destruct (key_lines_spec server lines SN LO [] k K) as [F|(-> & _)]; [auto|contradiction].
  - assert (L : forall ls k0, zlen k0 <= 128 -> key_file_lines server ls k0 = Ok k -> zlen k <= 128).
    { clear K. induction ls as [|l ls IH]; intros k0 L0; cbn [key_file_lines]; [intro E; injection E as <-; auto|].
      destruct (key_line server l) as [[k2|]|]; try discriminate; [|apply IH; auto]. destruct (zlen k2 >? MAX_KEY_LEN) eqn:B; [discriminate|].
      apply IH. unfold MAX_KEY_LEN in B. lia. }
    apply L in K; [|rewrite zlen_nil; lia]. split; auto. destruct k; [contradiction|]. rewrite zlen_cons. pose proof (zlen_nonneg k). lia.
Qed.
Lemma get_key_from server s k : server_name server -> match s with KText t => zlen t <= 128 | _ => True end ->
  get_key server s = Ok (Some k) -> key_from server s k.
Proof.
  intros SN L E. destruct s as [t|t|f|i]; cbn [get_key] in E.
  - injection E as <-. apply P_bytes.ztake_all. unfold MAX_KEY_LEN. lia.
  - destruct (decode_key t) as [[k'|]|] eqn:D; cbn in E; try discriminate. destruct (_ && _); [|discriminate]. injection E as ->. apply decode_key_from; auto.
  - apply file_key_from in E; tauto.
  - destruct i as [i|]; [|discriminate]. injection E as <-. exists i. split; auto. intros N C. apply prompt_entered; auto.
Qed.
Lemma cstr_len s : zlen (cstr s) <= zlen s.
Proof. induction s as [|c s IH]; cbn; [lia|]. destruct (beq c x00); rewrite ?zlen_cons, ?zlen_nil in *; pose proof (zlen_nonneg s); lia. Qed.
Lemma get_hmac_key_from server s k : server_name server -> match s with KText t => zlen t <= 128 | _ => True end ->
  get_hmac_key server s = Ok (Some k) -> key_from server s k /\ zlen k <= 128.
Proof.
  intros SN L E. destruct s as [t|t|f|i]; cbn [get_hmac_key] in E.
  - injection E as <-. unfold MAX_KEY_LEN. rewrite P_bytes.ztake_all by lia. split; [reflexivity|auto].
  - destruct (decode_key t) as [[k'|]|] eqn:D; cbn in E; try discriminate. destruct (zlen k' >? MAX_KEY_LEN) eqn:B; [discriminate|]. injection E as ->.
    split; [apply decode_key_from; auto|]. unfold MAX_KEY_LEN in B. lia.
  - apply file_key_from in E; tauto.
  - destruct i as [i|]; [|discriminate]. injection E as <-. split.
    + exists i. split; auto. intros N C. apply prompt_entered; auto.
    + pose proof (cstr_len (read_password i [])). pose proof (read_password_len i [] ltac:(rewrite zlen_nil; lia)). lia.
Qed.
