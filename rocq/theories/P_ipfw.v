(** Proofs about the ipfw back end: commands, the rule map, and requests. *)
From Verif Require Import Bytes M_util M_message M_codec M_access M_cycle M_incoming M_packet M_fw M_extcmd M_pf
  S_text S_access S_incoming S_fw S_pf P_bytes P_util P_util2 P_access P_fw P_fw2 P_fw3 P_fw5 P_fw9 P_incoming3 P_incoming5 P_pf P_pf2 M_ipfw S_ipfw.
From Coq Require Import Init.Byte List ZArith Bool Lia Permutation.
Import ListNotations.
Open Scope Z_scope.

Lemma bind_ok {A B} (x : A) (f : A -> outcome B) : bind (Ok x) f = f x. Proof. reflexivity. Qed.

(** ** The rule map *)
Lemma put_nth_ok v l : forall n, (n < List.length l)%nat -> exists l', put_nth n v l = Ok l' /\ List.length l' = List.length l /\
  forall j, nth_error l' j = if Nat.eqb j n then Some v else nth_error l j.
Proof.
  induction l as [|x l IH]; intros [|n] L; cbn [List.length] in L; try lia.
  - exists (v :: l). split; [reflexivity|]. split; [reflexivity|]. intros [|j]; reflexivity.
  - destruct (IH n) as (l' & E & LL & N); [lia|]. exists (x :: l'). cbn [put_nth]. rewrite E. cbn [bind]. split; [reflexivity|].
    split; [cbn [List.length]; lia|]. intros [|j]; [reflexivity|]. cbn [nth_error Nat.eqb]. apply N.
Qed.
Lemma put_map_ok i v l : 0 <= i < zlen l -> exists l', put_map i v l = Ok l' /\ zlen l' = zlen l /\
  forall j, nth_error l' j = if Nat.eqb j (Z.to_nat i) then Some v else nth_error l j.
Proof.
  intros [A B]. unfold put_map. destruct (Z.ltb_spec i 0); [lia|]. destruct (put_nth_ok v l (Z.to_nat i)) as (l' & E & LL & N); [unfold zlen in B; lia|].
  exists l'. split; [exact E|]. split; [unfold zlen; lia|exact N].
Qed.

Definition look (cf : ipfwconf) (m : list Z) (n : Z) : option Z := if n <? i_start cf then None else nth_error m (Z.to_nat (n - i_start cf)).
Lemma status_look cf k n : status cf k n = look cf (b_map k) n. Proof. reflexivity. Qed.
Lemma put_look cf n v m : in_range cf n -> zlen m = i_max cf -> exists m', put_map (n - i_start cf) v m = Ok m' /\ zlen m' = i_max cf /\
  look cf m' n = Some v /\ forall j, j <> n -> look cf m' j = look cf m j.
Proof.
  intros [A B] L. destruct (put_map_ok (n - i_start cf) v m) as (m' & E & LL & N); [lia|]. exists m'. split; [exact E|]. split; [congruence|]. split.
  - unfold look. destruct (Z.ltb_spec n (i_start cf)); [lia|]. now rewrite N, Nat.eqb_refl.
  - intros j J. unfold look. destruct (Z.ltb_spec j (i_start cf)); [reflexivity|]. rewrite N.
    destruct (Nat.eqb_spec (Z.to_nat (j - i_start cf)) (Z.to_nat (n - i_start cf))); [lia|reflexivity].
Qed.
Lemma first_free_spec st : 0 < st -> forall l i, 0 <= i -> st + i + zlen l <= 65536 ->
  first_free st i l = 0 /\ ~ In 0 l \/ exists j, first_free st i l = st + i + Z.of_nat j /\ nth_error l j = Some 0 /\ ~ In 0 (firstn j l).
Proof.
  intros S0. induction l as [|x l IH]; intros i I L; [left; split; [reflexivity|intros []]|]. cbn [first_free]. rewrite zlen_cons in L. pose proof (zlen_nonneg l).
  destruct (Z.eqb_spec x RULE_FREE) as [->|N].
  - right. exists 0%nat. split; [unfold u16; rewrite Z.mod_small by lia; lia|]. split; [reflexivity|]. intros [].
  - destruct (IH (i + 1)) as [(E & F)|(j & E & F & G)]; [lia|lia| |].
    + left. split; [exact E|]. intros [Q|Q]; [apply N; exact Q|auto].
    + right. exists (S j). split; [lia|]. split; [exact F|]. cbn [firstn]. intros [Q|Q]; [apply N; exact Q|auto].
Qed.

(** ** The table *)
Lemma insert_perm r l : Permutation (insert r l) (l ++ [r]).
Proof.
  induction l as [|x l IH]; cbn [insert app]; [reflexivity|]. destruct (r_num r <? r_num x).
  - change (x :: l ++ [r]) with ((x :: l) ++ [r]). apply Permutation_cons_append.
  - now apply perm_skip.
Qed.

Section Ipfw.
Variable K : ipfw.
Variable cf : ipfwconf.
Hypothesis CF : conf_fits cf.
Notation run := (exec_ipfw K).

Lemma join_cons w ws : ws <> [] -> join [" "%byte] (w :: ws) = w ++ $ " " ++ join [" "%byte] ws.
Proof. intro N. destruct ws; [easy|]. reflexivity. Qed.
Lemma join_len ws : zlen (join [" "%byte] ws) <= fold_right (fun w n => zlen w + 1 + n) 0 ws.
Proof.
  induction ws as [|w ws IH]; [reflexivity|]. destruct ws as [|v ws]; [cbn [join fold_right]; lia|].
  rewrite join_cons by discriminate. rewrite !zlen_app. change (zlen ($ " ")) with 1. cbn [fold_right] in *. lia.
Qed.
(** What a command does that fits the buffer *)
Lemma command_run ws args size t fs t' out : args = join [" "%byte] ws -> ws <> [] -> Forall word ws -> zlen ws < 28 ->
  fold_right (fun w n => zlen w + 1 + n) 0 ws <= 153 -> ipfw_run K t (i_cmd cf :: ws) = (t', out) ->
  exists ok o t1, ask_ipfw machine run cf args size (t, fs) = Ok (ok, o, (t1, tl fs)) /\ (t1 = t \/ t1 = t') /\
    (o = [] \/ o = truncate_partial_line (read_output size out [] [])) /\
    (hd Runs fs = Runs -> ok = true /\ t1 = t' /\ o = truncate_partial_line (read_output size out [] [])).
Proof.
  intros -> NE F N L E. destruct CF as (WC & LC & _). unfold ask_ipfw, run_extcmd.
  rewrite <- join_cons by exact NE. rewrite fmt_id. 2:{ rewrite join_cons, !zlen_app by exact NE. pose proof (join_len ws). change (zlen ($ " ")) with 1. lia. }
  rewrite argv_join. 2:{ constructor; assumption. } 2:{ rewrite zlen_cons. lia. }
  2:{ rewrite join_cons, !zlen_app by exact NE. pose proof (join_len ws). change (zlen ($ " ")) with 1. lia. }
  cbn [bind]. unfold exec_ipfw. rewrite E.
  assert (R0 : truncate_partial_line (read_output size [] [] []) = []) by reflexivity.
  destruct (hd Runs fs); rewrite ?R0; do 3 eexists; (split; [reflexivity|]); repeat split; auto; try discriminate.
Qed.

Lemma num_small n : 0 <= n <= 65535 -> word (dec n) /\ zlen (dec n) <= 5 /\ decimal (dec n) = n.
Proof.
  intro R. assert (N : numeral n (dec n)) by (apply dec_num; lia). split; [eapply numeral_word; exact N|]. split; [apply dec_len5; lia|apply N].
Qed.

(** ** Requests *)
Section Ask.
Hypothesis KO : ipfw_ok K.
Variables (src dst : bytes) (e now n : Z).
Hypothesis SRC : address_text src.
Hypothesis DST : dst = $ "me" \/ address_text dst.
Hypothesis TEN : ten_digits e.
Hypothesis RANGE : in_range cf n.
Definition mine (pp : Z * Z) (r : rule) : Prop := r_num r = n /\ r_set r = i_active cf /\ asks src dst e pp (r_body r).

Lemma dst_word : word dst /\ zlen dst <= 15.
Proof.
  destruct DST as [->|D]; [split; [lit|vm_compute; discriminate]|]. split; [now apply address_word|]. destruct D as (D & _). lia.
Qed.
Lemma mine_fun pp r r' : mine pp r -> mine pp r' -> r = r'.
Proof.
  destruct r as [rn rs rb], r' as [rn' rs' rb']. unfold mine. cbn [r_num r_set r_body].
  intros (-> & -> & (p & q & m & NP & NQ & NE & ->)) (-> & -> & (p' & q' & m' & NP' & NQ' & NE' & ->)).
  now rewrite (writes_unique _ _ _ NP NP'), (writes_unique _ _ _ NQ NQ'), (writes_unique _ _ _ NE NE').
Qed.

Lemma add_run pp r t fs : 0 <= fst pp <= 255 -> 0 <= snd pp <= 65535 -> mine pp r ->
  exists ok o t1, ask_ipfw machine run cf (add_args cf n (fst pp) src dst (snd pp) e) CMD_BUFSIZE (t, fs) = Ok (ok, o, (t1, tl fs)) /\
    (t1 = t \/ t1 = with_rules t (insert r (t_rules t))) /\ (hd Runs fs = Runs -> ok = true /\ t1 = with_rules t (insert r (t_rules t))).
Proof.
  intros P Q M. destruct r as [rn rs rb]. destruct M as (RN & RS & AS). cbn [r_num r_set r_body] in *. subst rn rs.
  pose proof CF as (_ & _ & A1 & _ & _ & S0 & M0 & SM). destruct RANGE as (R1 & R2).
  destruct (num_small n) as (W1 & L1 & D1); [lia|]. destruct (num_small (i_active cf)) as (W2 & L2 & D2); [lia|].
  destruct (num_small (fst pp)) as (W3 & L3 & _); [lia|]. destruct (num_small (snd pp)) as (W4 & L4 & _); [lia|].
  destruct dst_word as (WD & LD). assert (WS : word src) by (now apply address_word). assert (LS : zlen src <= 15) by (destruct SRC as (X & _); lia).
  assert (NE : numeral e (dec e)) by (apply dec_num; destruct TEN; lia). assert (LE : zlen (dec e) <= 10) by (apply dec_len10; destruct TEN; lia).
  assert (WE : word (mark ++ dec e)).
  { split; [discriminate|]. apply Forall_app. split; [apply (word_lit mark); [reflexivity|discriminate]|apply (numeral_word e _ NE)]. }
  assert (RB : rb = [$ "pass"; dec (fst pp); $ "from"; src; $ "to"; dst; $ "dst-port"; dec (snd pp); $ "setup"; $ "keep-state"; $ "//"; mark ++ dec e]).
  { destruct AS as (p & q & m & NP & NQ & NM & ->). rewrite (writes_unique _ _ _ NP (dec_num (fst pp) ltac:(lia))), (writes_unique _ _ _ NQ (dec_num (snd pp) ltac:(lia))), (writes_unique _ _ _ NM NE). reflexivity. }
  destruct KO as (_ & AC & _). destruct (AC src dst e pp rb) as (LG & _); auto.
  destruct (command_run ($ "add" :: dec n :: $ "set" :: dec (i_active cf) :: rb) (add_args cf n (fst pp) src dst (snd pp) e) CMD_BUFSIZE t fs
             (with_rules t (insert (mkRule n (i_active cf) rb) (t_rules t))) []) as (ok & o & t1 & E & T & _ & RR).
  - unfold add_args. rewrite !u32_small by lia. rewrite RB. cbn [join]. rewrite <- ?app_assoc. reflexivity.
  - discriminate.
  - rewrite RB. repeat (apply Forall_cons; [first [assumption|lit]|]). apply Forall_nil.
  - rewrite RB. reflexivity.
  - rewrite RB. cbn [fold_right]. rewrite zlen_app. change (zlen ($ "add")) with 3. change (zlen ($ "set")) with 3. change (zlen ($ "pass")) with 4. change (zlen ($ "from")) with 4.
    change (zlen ($ "to")) with 2. change (zlen ($ "dst-port")) with 8. change (zlen ($ "setup")) with 5. change (zlen ($ "keep-state")) with 10. change (zlen ($ "//")) with 2. change (zlen mark) with 5. lia.
  - cbn [ipfw_run]. change (bseq ($ "add") ($ "add")) with true. cbn iota. cbn [run_add]. change (bseq ($ "set") ($ "set")) with true. rewrite LG. cbn [andb]. now rewrite D1, D2.
  - exists ok, o, t1. split; [exact E|]. split; [exact T|]. intro H. destruct (RR H) as (-> & -> & _). split; reflexivity.
Qed.

(** Whatever fails *)
Lemma add_safe pl : forall xs res k t fs, Forall (fun pp : Z * Z => 0 <= fst pp <= 255 /\ 0 <= snd pp <= 65535) pl ->
  Forall2 mine pl xs -> zlen (b_map k) = i_max cf ->
  exists res' k' t' fs' ys, add_rules machine run cf n src dst e now pl res k (t, fs) = Ok (res', k', (t', fs')) /\
    only_drops (fun _ => True) xs ys /\ Permutation (t_rules t') (t_rules t ++ ys) /\ t_off t' = t_off t /\ t_dyn t' = t_dyn t.
Proof.
  induction pl as [|pp pl IH]; intros xs res k t fs PP G L.
  - inversion G; subst xs. exists res, k, t, fs, []. rewrite app_nil_r. repeat split; auto. constructor.
  - inversion G as [|? x ? xs' G1 G2]; subst. pose proof (Forall_inv PP) as (P & Q). pose proof (Forall_inv_tail PP) as PP'.
    destruct (add_run pp x t fs P Q G1) as (ok & o & t1 & E & T & _). destruct pp as (proto, port). cbn [fst snd] in *. cbn [add_rules]. rewrite E. cbn [bind].
    destruct (put_look cf n RULE_ACTIVE (b_map k) RANGE L) as (m' & EM & LM & SM & OM). rewrite EM. cbn [bind].
    assert (STEP : forall res1 k1, zlen (b_map k1) = i_max cf ->
       exists res' k' t' fs' ys, add_rules machine run cf n src dst e now pl res1 k1 (t1, tl fs) = Ok (res', k', (t', fs')) /\
        only_drops (fun _ => True) (x :: xs') ys /\ Permutation (t_rules t') (t_rules t ++ ys) /\ t_off t' = t_off t /\ t_dyn t' = t_dyn t).
    { intros res1 k1 L1. destruct (IH xs' res1 k1 t1 (tl fs) PP' G2 L1) as (res' & k' & t' & fs' & ys & E' & DR & PM & OF & DY).
      destruct T as [->| ->].
      - exists res', k', t', fs', ys. split; [exact E'|]. split; [now apply drops_drop|]. auto.
      - exists res', k', t', fs', (x :: ys). split; [exact E'|]. split; [now apply drops_keep|]. split; [|auto].
        etransitivity; [exact PM|]. cbn [t_rules with_rules]. etransitivity; [apply Permutation_app_tail, insert_perm|]. rewrite <- app_assoc. reflexivity. }
    destruct ok; apply STEP; [exact LM|exact L].
Qed.

(** If nothing fails *)
Lemma add_all pl : forall xs k t, Forall (fun pp : Z * Z => 0 <= fst pp <= 255 /\ 0 <= snd pp <= 65535) pl ->
  Forall2 mine pl xs -> zlen (b_map k) = i_max cf -> now <= e ->
  exists k' t', add_rules machine run cf n src dst e now pl true k (t, []) = Ok (true, k', (t', [])) /\
    Permutation (t_rules t') (t_rules t ++ xs) /\ t_off t' = t_off t /\ t_dyn t' = t_dyn t /\
    zlen (b_map k') = i_max cf /\ b_purged k' = b_purged k /\ (forall j, j <> n -> status cf k' j = status cf k j) /\
    (status cf k n = Some 1 \/ pl <> [] -> status cf k' n = Some 1) /\
    (0 <= b_active k -> 0 <= b_active k') /\
    (0 <= b_active k -> b_active k + zlen pl <= 65535 -> b_active k' = b_active k + zlen pl) /\
    b_next k' = match pl with [] => b_next k | _ => if (b_next k <? now) || (e <? b_next k) then e else b_next k end.
Proof.
  induction pl as [|pp pl IH]; intros xs k t PP G L NE.
  - inversion G; subst xs. exists k, t. rewrite app_nil_r. repeat (split; [solve [auto | intros [|]; easy]|]). split; [intros; change (zlen (@nil (Z * Z))) with 0; lia|reflexivity].
  - inversion G as [|? x ? xs' G1 G2]; subst. pose proof (Forall_inv PP) as (P & Q). pose proof (Forall_inv_tail PP) as PP'.
    destruct (add_run pp x t [] P Q G1) as (ok & o & t1 & E & _ & RR). destruct (RR eq_refl) as (-> & ->). destruct pp as (proto, port). cbn [fst snd] in *. cbn [add_rules]. rewrite E. cbn [bind tl].
    destruct (put_look cf n RULE_ACTIVE (b_map k) RANGE L) as (m' & EM & LM & SM & OM). rewrite EM. cbn [bind].
    set (nx := if (b_next k <? now) || (e <? b_next k) then e else b_next k).
    destruct (IH xs' (mkBooks (u16 (b_active k + 1)) (u16 (b_total k + 1)) nx (b_purged k) m') (with_rules t (insert x (t_rules t))) PP' G2 LM NE)
      as (k' & t' & E' & PM & OF & DY & LM' & PU & ST & SN & A0 & AC & NX).
    exists k', t'. split; [exact E'|]. split. { etransitivity; [exact PM|]. cbn [t_rules with_rules]. etransitivity; [apply Permutation_app_tail, insert_perm|]. rewrite <- app_assoc. reflexivity. }
    split; [exact OF|]. split; [exact DY|]. split; [exact LM'|]. split; [exact PU|].
    split. { intros j J. rewrite (ST j J). apply OM. exact J. }
    split. { intros _. apply SN. left. exact SM. }
    split. { intros _. apply A0. cbn [b_active]. unfold u16. apply Z.mod_pos_bound. lia. }
    clear A0.
    split. { intros A0 A1. rewrite zlen_cons in *. pose proof (zlen_nonneg pl). cbn [b_active] in AC. unfold u16 in AC. rewrite Z.mod_small in AC by lia. rewrite AC; lia. }
    rewrite NX. cbn [b_next]. destruct pl; [reflexivity|]. unfold nx.
    destruct (Z.ltb_spec (b_next k) now), (Z.ltb_spec e (b_next k)); cbn [orb];
      repeat match goal with |- context[?a <? ?b] => destruct (Z.ltb_spec a b) end; cbn [orb]; lia.
Qed.
End Ask.
End Ipfw.
