(** Proofs about the removal of expired rules. *)
From Verif Require Import Bytes M_util M_message M_codec M_access M_cycle M_incoming M_packet M_fw
  S_text S_fw P_bytes P_util P_util2 P_fw.
From Coq Require Import Init.Byte List ZArith Bool Lia.
Import ListNotations.
Open Scope Z_scope.

Lemma fmt_id s : zlen s <= 254 -> fmt s = s.
Proof. intro. unfold fmt, snprintf, CMD_BUFSIZE. apply ztake_all. lia. Qed.

(** What run_extcmd returns for a command that fits *)
Definition captured (size : Z) (r : machine * ended * bytes) : bool * bytes * machine :=
  match r with
  | (m, NotStarted, _) => (false, [], m)
  | (m, Killed, out) => (false, truncate_partial_line (read_output size out [] []), m)
  | (m, Exited, out) => (true, truncate_partial_line (read_output size out [] []), m)
  end.
Lemma run_fits K m ws size : Forall word ws -> zlen ws < 29 -> zlen (join [" "%byte] ws) <= 254 ->
  run_extcmd machine (run_iptables K) m (fmt (join [" "%byte] ws)) size = Ok (captured size (run_iptables K m ws)).
Proof.
  intros F N L. rewrite fmt_id by auto. unfold run_extcmd. rewrite argv_join; auto; try lia.
  cbn [bind]. destruct (run_iptables K m ws) as [[m' []] out]; reflexivity.
Qed.

Lemma word_lit (s : bytes) : forallb (fun c => negb (isspace c) && negb (beq c x00)) s = true -> s <> [] -> word s.
Proof.
  intros F N. split; auto. apply Forall_forall. intros c I. rewrite forallb_forall in F. specialize (F c I).
  apply andb_true_iff in F. destruct F as [A B]. split.
  - intro Q. apply isspace_blank in Q. rewrite Q in A. discriminate.
  - intros ->. discriminate.
Qed.
Ltac lit := apply word_lit; [reflexivity|discriminate].

Ltac words_ok :=
  repeat (apply Forall_cons; [first [assumption | lit | eapply numeral_word; eassumption]|]); apply Forall_nil.

Lemma put_same fw t c v : put_chain fw t c v t c = v.
Proof. unfold put_chain. now rewrite !bseq_refl. Qed.
Lemma put_else fw t c v : elsewhere t c fw (put_chain fw t c v).
Proof.
  intros t' c' N. unfold put_chain. destruct (bseq t' t) eqn:A, (bseq c' c) eqn:B; try reflexivity.
  apply bseq_eq in A, B. tauto.
Qed.
Lemma else_refl t c fw : elsewhere t c fw fw. Proof. intros ? ? _. reflexivity. Qed.
Lemma else_trans t c a b d : elsewhere t c a b -> elsewhere t c b d -> elsewhere t c a d.
Proof. intros H G t' c' N. now rewrite G, H. Qed.

Lemma remove_nth_app (a : list rule) x b n : n = List.length a -> remove_nth n (a ++ x :: b) = a ++ b.
Proof. intros ->. induction a; cbn; congruence. Qed.

(** ** One deletion *)
Section Del.
Variable K : iptables.
Variable cf : fwconf.
Variable c : chain.
Hypothesis NF : names_fit (f_cmd cf) c.

Definition del_words (n : Z) : list bytes := [f_cmd cf; $ "-t"; c_table c; $ "-D"; c_to c; dec n].
Lemma del_text n : f_cmd cf ++ $ " " ++ ($ "-t " ++ c_table c ++ $ " -D " ++ c_to c ++ $ " " ++ dec n) = join [" "%byte] (del_words n).
Proof. unfold del_words. cbn [join]. cbn. rewrite <- ?app_assoc. reflexivity. Qed.
Lemma del_command n m : 0 <= n <= 65536 ->
  command machine (run_iptables K) cf ($ "-t " ++ c_table c ++ $ " -D " ++ c_to c ++ $ " " ++ dec_i n) m =
  Ok (match run_iptables K m (del_words n) with (m', Exited, _) => (true, m') | (m', _, _) => (false, m') end).
Proof.
  intro R. destruct NF as (W1 & W2 & W3 & W4 & W5 & J & UM & L). rewrite dec_i_dec by lia.
  unfold command. rewrite del_text.
  assert (NM : numeral n (dec n)) by (apply dec_num; lia).
  assert (LN : zlen (dec n) <= 5) by (apply dec_len5; lia).
  rewrite run_fits.
  - cbn [bind]. destruct (run_iptables K m (del_words n)) as [[m' []] out]; reflexivity.
  - words_ok.
  - reflexivity.
  - unfold del_words. cbn [join]. rewrite !zlen_app.
    change (zlen [" "%byte]) with 1. change (zlen ($ "-t")) with 2. change (zlen ($ "-D")) with 2.
    pose proof (zlen_nonneg (c_from c)). pose proof (zlen_nonneg (c_target c)). lia.
Qed.

(** Deleting the first of the rules [r :: rs] behind [kept] *)
Lemma del_first fw fs kept r rs :
  fw (c_table c) (c_to c) = Some (kept ++ r :: rs) -> zlen kept < 65536 ->
  Forall (fun f => f = Runs \/ f = DiesBefore \/ f = NoStart) fs ->
  exists ok fw',
    command machine (run_iptables K) cf ($ "-t " ++ c_table c ++ $ " -D " ++ c_to c ++ $ " " ++ dec_i (zlen kept + 1)) (fw, fs) =
      Ok (ok, (fw', tl fs)) /\
    elsewhere (c_table c) (c_to c) fw fw' /\
    fw' (c_table c) (c_to c) = Some (if ok then kept ++ rs else kept ++ r :: rs) /\
    (fs = [] -> ok = true).
Proof.
  intros E Z F. pose proof (zlen_nonneg kept). rewrite del_command by lia.
  set (n := zlen kept + 1) in *. assert (Hn : n = zlen kept + 1) by reflexivity. clearbody n.
  assert (NM : numeral n (dec n)) by (apply dec_num; lia).
  assert (I : ipt K fw (del_words n) = (put_chain fw (c_table c) (c_to c) (Some (kept ++ rs)), [])).
  { unfold del_words, ipt. change (bseq ($ "-t") ($ "-t")) with true. cbn iota.
    unfold ipt_table. rewrite E.
    change (bseq ($ "-D") ($ "-L")) with false. change (bseq ($ "-D") ($ "-F")) with false.
    change (bseq ($ "-D") ($ "-X")) with false. change (bseq ($ "-D") ($ "-D")) with true. cbn iota.
    destruct NM as (_ & _ & -> & _). rewrite zlen_app, zlen_cons. pose proof (zlen_nonneg rs).
    destruct (Z.leb_spec 1 n); [|lia]. destruct (Z.leb_spec n (zlen kept + (1 + zlen rs))); [|lia]. cbn [andb].
    rewrite remove_nth_app; auto. unfold zlen in Hn. lia. }
  unfold run_iptables. rewrite I. destruct fs as [|f fs].
  - cbn [hd tl]. exists true, (put_chain fw (c_table c) (c_to c) (Some (kept ++ rs))).
    split; [reflexivity|]. split; [apply put_else|]. split; [apply put_same|auto].
  - inversion F as [|? ? Hf F']; subst. cbn [hd tl]. destruct Hf as [->|[->| ->]].
    + exists true, (put_chain fw (c_table c) (c_to c) (Some (kept ++ rs))).
      split; [reflexivity|]. split; [apply put_else|]. split; [apply put_same|discriminate].
    + exists false, fw. split; [reflexivity|]. split; [apply else_refl|]. split; [auto|discriminate].
    + exists false, fw. split; [reflexivity|]. split; [apply else_refl|]. split; [auto|discriminate].
Qed.
End Del.
