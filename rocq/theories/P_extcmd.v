(** Proofs about the programs the daemon runs. *)
From Verif Require Import Bytes M_util M_message M_codec M_cipher M_ctx M_access M_replay M_cycle M_incoming M_packet M_fw M_extcmd S_extcmd P_bytes P_util P_codec P_message P_incoming5.
From Coq Require Import Init.Byte List ZArith Bool Lia Relations.
Import ListNotations.
Open Scope Z_scope.

(** ** Identities *)
Lemma setgid_some y g c d : setgid y g c = Some d -> egid d = g /\ ruid d = ruid c /\ euid d = euid c /\ suid d = suid c /\ groups d = groups c /\
  (euid c = 0 -> rgid d = g /\ sgid d = g).
Proof.
  unfold setgid. destruct (negb (x_setgid y) || (g =? NO_ID)); [discriminate|]. destruct (euid c =? 0) eqn:E.
  - intros [= <-]. cbn. apply Z.eqb_eq in E. auto 10.
  - destruct ((g =? rgid c) || (g =? sgid c)); [|discriminate]. intros [= <-]. cbn. apply Z.eqb_neq in E. repeat split; auto; contradiction.
Qed.
Lemma setuid_some y u c d : setuid y u c = Some d -> euid d = u /\ rgid d = rgid c /\ egid d = egid c /\ sgid d = sgid c /\ groups d = groups c /\
  (euid c = 0 -> ruid d = u /\ suid d = u).
Proof.
  unfold setuid. destruct (negb (x_setuid y) || (u =? NO_ID)); [discriminate|]. destruct (euid c =? 0) eqn:E.
  - intros [= <-]. cbn. apply Z.eqb_eq in E. auto 10.
  - destruct ((u =? ruid c) || (u =? suid c)); [|discriminate]. intros [= <-]. cbn. apply Z.eqb_neq in E. repeat split; auto; contradiction.
Qed.

Lemma child_runs y c u g argv d av : extcmd_child y c u g argv = Runs d av ->
  av = argv /\ x_exec y d argv = true /\ groups d = groups c /\
  (0 < g -> egid d = g /\ (euid c = 0 -> rgid d = g /\ sgid d = g)) /\
  (g <= 0 -> rgid d = rgid c /\ egid d = egid c /\ sgid d = sgid c) /\
  (0 < u -> euid d = u /\ (euid c = 0 -> ruid d = u /\ suid d = u)) /\
  (u <= 0 -> ruid d = ruid c /\ euid d = euid c /\ suid d = suid c).
Proof.
  unfold extcmd_child. destruct (negb (x_chdir y c)); [discriminate|].
  destruct (0 <? g) eqn:G.
  - apply Z.ltb_lt in G. destruct (setgid y g c) as [c1|] eqn:S1; [|discriminate]. apply setgid_some in S1 as (A1 & A2 & A3 & A4 & A5 & A6).
    destruct (0 <? u) eqn:U.
    + apply Z.ltb_lt in U. destruct (setuid y u c1) as [c2|] eqn:S2; [|discriminate]. apply setuid_some in S2 as (B1 & B2 & B3 & B4 & B5 & B6).
      destruct (x_exec y c2 argv) eqn:X; [|discriminate]. intros [= <- <-]. split; [auto|]. split; [auto|]. split; [congruence|].
      split; [intros _; split; [congruence|intro Z0; destruct (A6 Z0); split; congruence]|]. split; [lia|].
      split; [intros _; split; [congruence|intro Z0; apply B6; congruence]|lia].
    + apply Z.ltb_ge in U. destruct (x_exec y c1 argv) eqn:X; [|discriminate]. intros [= <- <-]. split; [auto|]. split; [auto|]. split; [congruence|].
      split; [auto|]. split; [lia|]. split; [lia|auto].
  - apply Z.ltb_ge in G. destruct (0 <? u) eqn:U.
    + apply Z.ltb_lt in U. destruct (setuid y u c) as [c2|] eqn:S2; [|discriminate]. apply setuid_some in S2 as (B1 & B2 & B3 & B4 & B5 & B6).
      destruct (x_exec y c2 argv) eqn:X; [|discriminate]. intros [= <- <-]. split; [auto|]. split; [auto|]. split; [congruence|].
      split; [lia|]. split; [auto|]. split; [auto|lia].
    + apply Z.ltb_ge in U. destruct (x_exec y c argv) eqn:X; [|discriminate]. intros [= <- <-]. split; [auto|]. split; [auto|]. split; [congruence|].
      split; [lia|]. split; [auto|]. split; [lia|auto].
Qed.

Lemma user_stays u g c d : u <> 0 -> is_user u g c -> ever_becomes c d -> is_user u g d /\ groups d = groups c.
Proof.
  intros NZ U E. apply clos_rt_rtn1 in E. induction E as [|x y B E IH]; [auto|]. destruct IH as ((A1 & A2 & A3 & A4 & A5 & A6) & GR).
  destruct B as [B|B]; [congruence|]. cbn zeta in B. rewrite A1, A2, A3, A4, A5, A6 in B. cbn [In] in B.
  destruct B as (B1 & B2 & B3 & B4 & B5 & B6 & B7). unfold is_user. repeat split; [intuition congruence..|congruence].
Qed.

(** ** The status *)
Lemma happen_end_other t pid p s : p <> pid -> find (fun x => fst x =? pid) (happen t (End p s)) = find (fun x => fst x =? pid) t.
Proof.
  intro N. induction t as [|[q o] t IH]; [reflexivity|]. cbn [happen map fst] in *. destruct (q =? p) eqn:Q.
  - apply Z.eqb_eq in Q. subst q. cbn [find fst]. replace (p =? pid) with false by (symmetry; apply Z.eqb_neq; exact N). exact IH.
  - cbn [find fst]. destruct (q =? pid); [reflexivity|exact IH].
Qed.
Lemma happen_end_same t pid s o : find (fun x => fst x =? pid) t = Some (pid, o) ->
  find (fun x => fst x =? pid) (happen t (End pid s)) = Some (pid, match o with None => Some s | o => o end).
Proof.
  induction t as [|[q o1] t IH]; [discriminate|]. cbn [happen map find fst] in *. destruct (q =? pid) eqn:Q.
  - cbn [find fst snd]. rewrite Z.eqb_refl. intros [= _ <-]. destruct o1; reflexivity.
  - cbn [find fst]. rewrite Q. exact IH.
Qed.
Lemma happen_end_none t pid p s : find (fun x => fst x =? pid) t = None -> find (fun x => fst x =? pid) (happen t (End p s)) = None.
Proof.
  induction t as [|[q o1] t IH]; [reflexivity|]. cbn [happen map find fst] in *. destruct (q =? pid) eqn:Q; [discriminate|]. intro E.
  destruct (q =? p) eqn:R; cbn [find fst]; [apply Z.eqb_eq in R; subst q; rewrite Q|rewrite Q]; auto.
Qed.
Lemma happen_handler_other t pid p : p <> pid -> find (fun x => fst x =? pid) (happen t (Handler p)) = find (fun x => fst x =? pid) t.
Proof.
  intro N. induction t as [|[q o] t IH]; [reflexivity|]. cbn [happen filter fst snd] in *. destruct (q =? p) eqn:Q.
  - apply Z.eqb_eq in Q. subst q. cbn [andb]. destruct o; cbn [negb].
    + cbn [find fst]. replace (p =? pid) with false by (symmetry; apply Z.eqb_neq; exact N). exact IH.
    + cbn [find fst]. replace (p =? pid) with false by (symmetry; apply Z.eqb_neq; exact N). exact IH.
  - cbn [andb negb find fst]. destruct (q =? pid); [reflexivity|exact IH].
Qed.
Lemma happen_handler_none t pid p : find (fun x => fst x =? pid) t = None -> find (fun x => fst x =? pid) (happen t (Handler p)) = None.
Proof.
  induction t as [|[q o] t IH]; [reflexivity|]. cbn [find fst] in *. destruct (q =? pid) eqn:Q; [discriminate|]. intro E. cbn [happen filter fst snd] in *.
  destruct (negb ((q =? p) && match o with Some _ => true | None => false end)); [cbn [find fst]; rewrite Q|]; auto.
Qed.
Lemma happen_running t pid : find (fun x => fst x =? pid) t = Some (pid, None) -> find (fun x => fst x =? pid) (happen t (Handler pid)) = Some (pid, None).
Proof.
  induction t as [|[q o] t IH]; [discriminate|]. cbn [happen filter find fst snd] in *. destruct (q =? pid) eqn:Q.
  - intros [= -> ->]. cbn [andb negb find fst]. rewrite Z.eqb_refl. reflexivity.
  - cbn [andb negb find fst]. rewrite Q. exact IH.
Qed.
Lemma happen_reaped t pid st : NoDup (map fst t) -> find (fun x => fst x =? pid) t = Some (pid, Some st) -> find (fun x => fst x =? pid) (happen t (Handler pid)) = None.
Proof.
  induction t as [|[q o] t IH]; [discriminate|]. cbn [happen filter find fst snd map] in *. intros ND. inversion ND as [|? ? NI ND']. subst. destruct (q =? pid) eqn:Q.
  - intros [= -> ->]. cbn [andb negb]. apply Z.eqb_eq in Q. clear - NI. induction t as [|[r o] t IH]; [reflexivity|]. cbn [filter fst snd map In] in *.
    destruct (negb ((r =? pid) && match o with Some _ => true | None => false end)); [|apply IH; tauto].
    cbn [find fst]. destruct (r =? pid) eqn:R; [apply Z.eqb_eq in R; tauto|apply IH; tauto].
  - cbn [andb negb find fst]. rewrite Q. apply IH. exact ND'.
Qed.
Lemma nodup_happen t e : NoDup (map fst t) -> NoDup (map fst (happen t e)).
Proof.
  intro N. destruct e as [p s|p]; cbn [happen].
  - rewrite map_map. replace (map _ t) with (map fst t); [exact N|]. apply map_ext. intros [q o]. cbn [fst]. destruct (q =? p) eqn:Q; [apply Z.eqb_eq in Q; exact Q|reflexivity].
  - induction t as [|[q o] t IH]; [constructor|]. cbn [filter fst snd map] in *. inversion N as [|? ? NI N']. subst.
    destruct (negb ((q =? p) && match o with Some _ => true | None => false end)); [|auto]. cbn [map fst]. constructor; [|auto].
    intro I. apply NI. apply in_map_iff in I as (x & <- & I). apply filter_In in I as (I & _). apply in_map. exact I.
Qed.
Lemma nodup_fold l t : NoDup (map fst t) -> NoDup (map fst (fold_left happen l t)).
Proof. revert t. induction l as [|e l IH]; cbn [fold_left]; auto. intros t N. apply IH. apply nodup_happen. exact N. Qed.

Lemma still_running l t pid : find (fun x => fst x =? pid) t = Some (pid, None) -> (forall s, ~ In (End pid s) l) ->
  find (fun x => fst x =? pid) (fold_left happen l t) = Some (pid, None).
Proof.
  revert t. induction l as [|e l IH]; cbn [fold_left]; auto. intros t F N. apply IH; [|intros s I; apply (N s); right; exact I].
  destruct e as [p s|p]; destruct (Z.eq_dec p pid) as [->|NE].
  - exfalso. apply (N s). left. reflexivity.
  - rewrite happen_end_other by exact NE. exact F.
  - apply happen_running. exact F.
  - rewrite happen_handler_other by exact NE. exact F.
Qed.
Lemma none_stays l t pid : find (fun x => fst x =? pid) t = None -> find (fun x => fst x =? pid) (fold_left happen l t) = None.
Proof.
  revert t. induction l as [|e l IH]; cbn [fold_left]; auto. intros t F. apply IH. destruct e; [apply happen_end_none|apply happen_handler_none]; exact F.
Qed.
Definition reaps (pid : Z) (l : list event) : bool := existsb (fun e => match e with Handler p => p =? pid | End _ _ => false end) l.
Lemma reaps_in pid l : reaps pid l = true <-> In (Handler pid) l.
Proof.
  unfold reaps. rewrite existsb_exists. split.
  - intros ([p s|p] & I & E); [discriminate|]. apply Z.eqb_eq in E. subst p. exact I.
  - intro I. exists (Handler pid). split; [exact I|apply Z.eqb_refl].
Qed.
Lemma status_stays l t pid st : NoDup (map fst t) -> find (fun x => fst x =? pid) t = Some (pid, Some st) ->
  find (fun x => fst x =? pid) (fold_left happen l t) = (if reaps pid l then None else Some (pid, Some st)).
Proof.
  revert t. induction l as [|e l IH]; intros t ND F; [exact F|]. cbn [fold_left]. destruct e as [p s|p].
  - change (reaps pid (End p s :: l)) with (reaps pid l). apply IH; [apply nodup_happen; exact ND|].
    destruct (Z.eq_dec p pid) as [->|NE]; [rewrite (happen_end_same _ _ _ _ F); reflexivity|rewrite happen_end_other by exact NE; exact F].
  - change (reaps pid (Handler p :: l)) with ((p =? pid) || reaps pid l). destruct (p =? pid) eqn:Q; cbn [orb].
    + apply Z.eqb_eq in Q. subst p. apply none_stays. eapply happen_reaped; eauto.
    + apply Z.eqb_neq in Q. apply IH; [apply nodup_happen; exact ND|]. rewrite happen_handler_other by exact Q. exact F.
Qed.
Lemma status_is pid st before after l t : NoDup (map fst t) -> In (pid, None) t -> ends_with pid st before after l ->
  (In (Handler pid) after /\ wait_status pid t l = Some 0) \/ (~ In (Handler pid) after /\ wait_status pid t l = Some st).
Proof.
  intros ND I (-> & NB). unfold wait_status.
  assert (F : find (fun x => fst x =? pid) t = Some (pid, None)).
  { clear - ND I. induction t as [|[q o] t IH]; [contradiction|]. cbn [map fst find] in *. inversion ND as [|? ? NI ND']. subst. destruct (q =? pid) eqn:Q.
    - destruct I as [I|I]; [congruence|]. apply Z.eqb_eq in Q. subst q. exfalso. apply NI. change pid with (fst (pid, @None Z)). apply in_map. exact I.
    - apply IH; [exact ND'|]. destruct I as [I|I]; [|exact I]. injection I as -> ->. rewrite Z.eqb_refl in Q. discriminate. }
  rewrite !fold_left_app. cbn [fold_left]. pose proof (still_running before t pid F NB) as R.
  pose proof (happen_end_same _ _ st _ R) as E. cbn iota beta in E.
  rewrite (status_stays after _ pid st (nodup_happen _ _ (nodup_fold _ _ ND)) E). rewrite <- reaps_in. destruct (reaps pid after); [left|right]; split; auto.
Qed.
Lemma still_waits pid l t : NoDup (map fst t) -> In (pid, None) t -> (forall s, ~ In (End pid s) l) -> wait_status pid t l = None.
Proof.
  intros ND I N. unfold wait_status. rewrite (still_running l t pid); auto.
  clear - ND I. induction t as [|[q o] t IH]; [contradiction|]. cbn [map fst find] in *. inversion ND as [|? ? NI ND']. subst. destruct (q =? pid) eqn:Q.
  - destruct I as [I|I]; [congruence|]. apply Z.eqb_eq in Q. subst q. exfalso. apply NI. change pid with (fst (pid, @None Z)). apply in_map. exact I.
  - apply IH; [exact ND'|]. destruct I as [I|I]; [|exact I]. injection I as -> ->. rewrite Z.eqb_refl in Q. discriminate.
Qed.

(** ** The search *)
Lemma strstr_holds sub s : (match strstr (fun b => b) sub s with Some _ => true | None => false end) = true <-> holds sub s.
Proof.
  destruct (strstr (fun b => b) sub s) as [r|] eqn:E.
  - split; [|reflexivity]. intros _. apply strstr_some in E as (a & h & b & -> & -> & M & _). rewrite map_id in M. subst h. exists a, b. reflexivity.
  - split; [discriminate|]. intros (a & b & ->). exfalso. eapply strstr_none; eauto. apply map_id.
Qed.
Lemma holds_nl sub l : ~ In x0a sub -> holds sub (l ++ [x0a]) <-> holds sub l \/ sub = [].
Proof.
  intro N. split.
  - intros (a & b & E). destruct sub as [|s0 sub']; [auto|]. left. assert (NE : s0 :: sub' <> []) by discriminate. set (sub := s0 :: sub') in *. clearbody sub. clear s0 sub'.
    destruct b as [|b0 b1]; [|assert (NB : b0 :: b1 <> []) by discriminate; destruct (exists_last NB) as (b' & x & EB); rewrite EB in E; clear EB NB].
    + rewrite app_nil_r in E. exfalso. destruct (exists_last NE) as (s & x & ->). rewrite app_assoc in E. apply app_inj_tail in E as (_ & <-). apply N. apply in_or_app. right. left. reflexivity.
    + rewrite !app_assoc in E. apply app_inj_tail in E as (-> & _). exists a, b'. rewrite <- app_assoc. reflexivity.
  - intros [(a & b & ->)| ->]; [exists a, (b ++ [x0a])|exists [], (l ++ [x0a])]; rewrite <- ?app_assoc; reflexivity.
Qed.

Lemma cstr_prefix l : exists t, l = cstr l ++ t.
Proof.
  induction l as [|c l (t & IH)]; [exists []; reflexivity|]. cbn [cstr]. destruct (beq c x00) eqn:B.
  - exists (c :: l). reflexivity.
  - exists t. cbn [app]. f_equal. exact IH.
Qed.
Lemma found_holds sub l : found sub l = true -> holds sub l.
Proof.
  unfold found. rewrite andb_true_iff. intros (_ & H). apply strstr_holds in H as (a & b & E). destruct (cstr_prefix l) as (t & Q). exists a, (b ++ t).
  rewrite Q, E. rewrite <- !app_assoc. reflexivity.
Qed.
Lemma found_plain sub l : plain_line l -> ~ In x0a l -> sub <> [] -> ~ In x0a sub -> found sub (l ++ [x0a]) = true <-> holds sub l.
Proof.
  intros (_ & NN & FI) NI NE NL. unfold found. rewrite cstr_id by (intro I; apply in_app_or in I as [I|[I|[]]]; [exact (NN I)|discriminate I]). rewrite andb_true_iff, strstr_holds, (holds_nl _ _ NL).
  split; [intros (_ & [A|A]); [exact A|contradiction]|]. intro A. split; [|auto]. destruct l as [|c l].
  - exfalso. destruct A as (a & b & A). destruct a; [|discriminate]. destruct sub; [auto|discriminate].
  - cbn [app empty_line]. destruct FI as (A1 & A2 & A3). rewrite (proj2 (beq_neq c "#"%byte)), (proj2 (beq_neq c x0d)), (proj2 (beq_neq c ";"%byte)) by assumption.
    assert (c <> x00) by (intros ->; apply NN; left; reflexivity). assert (c <> x0a) by (intros ->; apply NI; left; reflexivity).
    rewrite (proj2 (beq_neq c x00)), (proj2 (beq_neq c x0a)) by assumption. reflexivity.
Qed.

Lemma search_sound sub size s : forall cur n last k buf, search_lines sub size s cur n last = (Some k, buf) -> holds sub (cur ++ s) /\ n < k.
Proof.
  induction s as [|c s IH]; intros cur n last k buf; cbn [search_lines].
  - destruct cur as [|c0 cur]; [discriminate|]. destruct (found sub (c0 :: cur)) eqn:F; [|discriminate]. intros [= <- <-]. rewrite app_nil_r. split; [apply found_holds; exact F|lia].
  - destruct (beq c x0a || (zlen (cur ++ [c]) =? IO_READ_BUF_LEN - 1)).
    + destruct (found sub (cur ++ [c])) eqn:F.
      * intros [= <- <-]. apply found_holds in F as (a & b & E). split; [|lia]. exists a, (b ++ s). change (c :: s) with ([c] ++ s). rewrite app_assoc, E, <- !app_assoc. reflexivity.
      * intro E. apply IH in E as ((a & b & E) & L). cbn [app] in E. split; [|lia]. exists (cur ++ [c] ++ a), b. rewrite E, <- !app_assoc. reflexivity.
    + intro E. apply IH in E. rewrite <- app_assoc in E. exact E.
Qed.

Lemma search_line sub size l rest : ~ In x0a l -> forall cur n last, zlen (cur ++ l) < 255 ->
  search_lines sub size (l ++ [x0a] ++ rest) cur n last =
  (if found sub (cur ++ l ++ [x0a]) then (Some (n + 1), ztake (size - 1) (cstr (cur ++ l ++ [x0a])))
   else search_lines sub size rest [] (n + 1) (ztake (size - 1) (cstr (cur ++ l ++ [x0a])))).
Proof.
  induction l as [|c l IH]; intros NI cur n last L.
  - cbn [app search_lines]. change (beq x0a x0a) with true. reflexivity.
  - cbn [app search_lines]. assert (c <> x0a) by (intros ->; apply NI; left; reflexivity). rewrite (proj2 (beq_neq c x0a)) by assumption.
    assert (Q : zlen (cur ++ [c]) =? IO_READ_BUF_LEN - 1 = false).
    { apply Z.eqb_neq. unfold IO_READ_BUF_LEN. rewrite zlen_app in *. change (zlen [c]) with 1. rewrite zlen_cons in L. pose proof (zlen_nonneg l). lia. }
    rewrite Q. cbn [orb].
    change (l ++ x0a :: rest) with (l ++ [x0a] ++ rest). rewrite IH; [|intro I; apply NI; right; exact I|rewrite <- app_assoc; exact L].
    rewrite <- !app_assoc. reflexivity.
Qed.

Lemma search_none sub size ls : sub <> [] -> ~ In x0a sub -> Forall (fun l => ~ In x0a l) ls -> Forall plain_line ls -> forall rest n last,
  (forall l, In l ls -> ~ holds sub l) ->
  exists last', search_lines sub size (concat (map (fun l => l ++ [x0a]) ls) ++ rest) [] n last = search_lines sub size rest [] (n + zlen ls) last'.
Proof.
  intros NE NL F1 F2. induction ls as [|l ls IH]; intros rest n last NO; [exists last; rewrite Z.add_0_r; reflexivity|].
  inversion F1 as [|? ? N1 F1']. inversion F2 as [|? ? P1 F2']. subst. cbn [map concat]. rewrite <- !app_assoc. rewrite search_line by (auto; apply P1).
  cbn [app]. destruct (found sub (l ++ [x0a])) eqn:F; [apply found_plain in F; auto; exfalso; exact (NO l (or_introl eq_refl) F)|].
  destruct (IH F1' F2' rest (n + 1) (ztake (size - 1) (cstr (l ++ [x0a]))) (fun x I => NO x (or_intror I))) as (last' & E). exists last'. rewrite E. f_equal. rewrite zlen_cons. lia.
Qed.
Lemma cut_rev_nl r : cut_rev (x0a :: r) = x0a :: r.
Proof. destruct r; reflexivity. Qed.
Lemma truncate_whole l : truncate_partial_line (l ++ [x0a]) = l ++ [x0a].
Proof.
  unfold truncate_partial_line. destruct (memb x0a (l ++ [x0a])); [|reflexivity]. rewrite rev_app_distr. cbn [rev app]. rewrite cut_rev_nl. cbn [rev]. rewrite rev_involutive. reflexivity.
Qed.
Lemma search_first sub size out before l after : sub <> [] -> ~ In x0a sub -> text_lines out (before ++ l :: after) -> Forall plain_line (before ++ [l]) -> zlen l + 1 < size ->
  (forall x, In x before -> ~ holds sub x) -> holds sub l -> search_output sub size out = (zlen before + 1, l ++ [x0a]).
Proof.
  intros NE NL (-> & F1) F2 SZ NO HO. apply Forall_app in F1 as (F1 & F1'). apply Forall_app in F2 as (F2 & F2'). inversion F1' as [|? ? N1 _]. inversion F2' as [|? ? P1 _]. subst.
  unfold search_output. rewrite map_app, concat_app. destruct (search_none sub size before NE NL F1 F2 (concat (map (fun l => l ++ [x0a]) (l :: after))) 0 [] NO) as (last' & ->).
  cbn [map concat]. rewrite <- app_assoc. rewrite search_line by (auto; apply P1). cbn [app]. rewrite (proj2 (found_plain sub l P1 N1 NE NL) HO).
  rewrite cstr_id by (intro I; apply in_app_or in I as [I|[I|[]]]; [destruct P1 as (_ & X & _); exact (X I)|discriminate I]).
  rewrite ztake_all by (rewrite zlen_app; change (zlen [x0a]) with 1; lia). rewrite truncate_whole. f_equal.
Qed.
Lemma search_absent sub size out ls : sub <> [] -> ~ In x0a sub -> text_lines out ls -> Forall plain_line ls -> (forall l, In l ls -> ~ holds sub l) -> fst (search_output sub size out) = 0.
Proof.
  intros NE NL (-> & F1) F2 NO. unfold search_output. destruct (search_none sub size ls NE NL F1 F2 [] 0 [] NO) as (last' & E). rewrite app_nil_r in E. rewrite E. reflexivity.
Qed.
