(** Proofs about the daemon with an iptables without -C. *)
From Verif Require Import Bytes M_util M_message M_codec M_access M_cycle M_incoming M_packet M_fw M_extcmd
  S_text S_access S_fw S_extcmd P_bytes P_util P_util2 P_access P_fw P_fw2 P_fw3 P_fw4 P_fw5 P_fw6 P_fw7 P_fw8 P_extcmd P_firewd4 P_incoming3 M_old S_old.
From Coq Require Import Init.Byte List ZArith Bool Lia.
Import ListNotations.
Open Scope Z_scope.

(** ** The line found *)
Lemma search_piece sub size s : forall cur n last k buf, search_lines sub size s cur n last = (Some k, buf) -> ~ In x0a cur -> zlen cur < 255 -> 0 <= n ->
  exists a l b, cur ++ s = a ++ l ++ b /\ found sub l = true /\ buf = ztake (size - 1) (cstr l) /\ zlen l <= 255 /\ 0 < k /\
    (~ In x0a l \/ exists x, l = x ++ [x0a] /\ ~ In x0a x).
Proof.
  induction s as [|c s IH]; intros cur n last k buf; cbn [search_lines].
  - destruct cur as [|c0 cur]; [discriminate|]. destruct (found sub (c0 :: cur)) eqn:F; [|discriminate]. intros [= <- <-] NI L HN.
    exists [], (c0 :: cur), []. split; [now rewrite !app_nil_r|]. split; [exact F|]. split; [reflexivity|]. split; [lia|]. split; [lia|auto].
  - destruct (beq c x0a || (zlen (cur ++ [c]) =? IO_READ_BUF_LEN - 1)) eqn:B.
    + destruct (found sub (cur ++ [c])) eqn:F.
      * intros [= <- <-] NI L HN. exists [], (cur ++ [c]), s. split; [now rewrite <- app_assoc|]. split; [exact F|]. split; [reflexivity|].
        split; [rewrite zlen_app; change (zlen [c]) with 1; lia|]. split; [lia|].
        destruct (beq c x0a) eqn:Q; [apply beq_eq in Q; subst c; right; exists cur; auto|].
        left. intro I. apply in_app_or in I as [I|[I|[]]]; [auto|]. subst c. discriminate.
      * intros E NI L HN. destruct (IH [] (n + 1) _ k buf E) as (a & l & b & P & R); [intros []|rewrite zlen_nil; lia|lia|].
        exists (cur ++ c :: a), l, b. split; [|exact R]. cbn [app] in P. rewrite P. rewrite <- app_assoc. reflexivity.
    + intros E NI L HN. apply orb_false_iff in B as (B1 & B2). apply Z.eqb_neq in B2. change (IO_READ_BUF_LEN - 1) with 255 in B2. rewrite zlen_app in B2. change (zlen [c]) with 1 in B2.
      destruct (IH (cur ++ [c]) n last k buf E) as (a & l & b & P & R); [|rewrite zlen_app; change (zlen [c]) with 1; lia|lia|].
      * intro I. apply in_app_or in I as [I|[I|[]]]; [auto|]. subst c. discriminate.
      * exists a, l, b. split; [|exact R]. rewrite <- P, <- app_assoc. reflexivity.
Qed.

Lemma cstr_in x l : In x (cstr l) -> In x l.
Proof. destruct (cstr_prefix l) as (t & E). intro I. rewrite E. apply in_or_app. auto. Qed.
Lemma cstr_snoc x c : cstr (x ++ [c]) = cstr x \/ cstr (x ++ [c]) = x ++ [c] /\ cstr x = x.
Proof.
  induction x as [|y x IH]; cbn [app cstr].
  - destruct (beq c x00); auto.
  - destruct (beq y x00); [auto|]. destruct IH as [-> |(-> & E)]; [auto|]. rewrite E. auto.
Qed.
Lemma truncate_plain s : ~ In x0a s -> truncate_partial_line s = s.
Proof. intro N. unfold truncate_partial_line. destruct (memb x0a s) eqn:M; [|reflexivity]. apply memb_In in M. contradiction. Qed.
Lemma chop_plain s : ~ In x0a s -> chop_newline s = s.
Proof.
  intro N. unfold chop_newline. destruct s as [|c s]; [reflexivity|]. destruct (beq (last (c :: s) x00) x0a) eqn:B; [|rewrite andb_false_r; reflexivity].
  apply beq_eq in B. exfalso. apply N. assert (NE : c :: s <> []) by discriminate. rewrite (app_removelast_last x00 NE), B. apply in_or_app. right. left. reflexivity.
Qed.
Lemma holds_refl s : holds s s. Proof. exists [], []. now rewrite app_nil_r. Qed.
Lemma holds_trans a b c : holds a b -> holds b c -> holds a c.
Proof. intros (x & y & ->) (u & v & ->). exists (u ++ x), (y ++ v). now rewrite <- !app_assoc. Qed.
Lemma holds_begins a b : begins a b -> holds a b.
Proof. intros (z & ->). exists [], z. reflexivity. Qed.

Lemma line_found sub out n buf : sub <> [] -> ~ In x0a sub -> search_output sub CMD_BUFSIZE out = (n, buf) -> n <> 0 ->
  let line := chop_newline buf in holds sub line /\ ~ In x0a line /\ holds line out.
Proof.
  intros NE NL. unfold search_output. destruct (search_lines sub CMD_BUFSIZE out [] 0 []) as [[k|] b0] eqn:E; [|intros [= <- <-]; easy].
  intros [= <- <-] _. destruct (search_piece _ _ _ _ _ _ _ _ E) as (a & l & b & P & F & -> & LL & _ & SH); [intros []|rewrite zlen_nil; lia|lia|].
  cbn [app] in P. assert (HL : holds (cstr l) out). { apply (holds_trans _ l); [destruct (cstr_prefix l) as (t & Q); exists [], t; exact Q|exists a, b; exact P]. }
  assert (LC : zlen (cstr l) <= 255). { destruct (cstr_prefix l) as (t & Q). rewrite Q in LL. rewrite zlen_app in LL. pose proof (zlen_nonneg t). lia. }
  rewrite (ztake_all (CMD_BUFSIZE - 1)) by (change (CMD_BUFSIZE - 1) with 255; lia).
  assert (FS : holds sub (cstr l)). { unfold found in F. apply andb_true_iff in F as (_ & F). apply strstr_holds. exact F. }
  assert (CASE : ~ In x0a (cstr l) \/ exists x, cstr l = x ++ [x0a] /\ ~ In x0a x).
  { destruct SH as [N|(x & -> & N)]; [left; intro I; apply N, cstr_in, I|]. destruct (cstr_snoc x x0a) as [-> |(-> & _)].
    - left. intro I. apply N, cstr_in, I.
    - right. exists x. auto. }
  destruct CASE as [N|(x & Q & N)].
  - rewrite truncate_plain, chop_plain by assumption. auto.
  - rewrite Q in *. rewrite truncate_whole. assert (HX : holds sub x). { apply (holds_nl sub x NL) in FS as [FS|FS]; [exact FS|contradiction]. }
    assert (x <> []). { intros ->. destruct HX as (u & v & HX). destruct u; [|discriminate]. destruct sub; [auto|discriminate]. }
    rewrite chop_last by assumption. split; [exact HX|]. split; [exact N|]. apply (holds_trans _ (x ++ [x0a])); [exists [], [x0a]; reflexivity|exact HL].
Qed.

(** ** What the line tells *)
Lemma numeral_unique n s t : 0 <= n -> numeral n s -> numeral n t -> s = t.
Proof.
  intros P S T. pose proof (numeral_mono n n s t S T ltac:(lia)). pose proof (numeral_mono n n t s T S ltac:(lia)).
  destruct S as (_ & A & B & _), T as (_ & C & D & _). apply same_digits; auto; [lia|congruence].
Qed.
Lemma digits_nl ds : all_digits ds -> ~ In x0a ds.
Proof. intros A I. unfold all_digits in A. rewrite Forall_forall in A. specialize (A _ I). unfold digit in A. vm_compute in A. destruct A as [A _]. apply A. reflexivity. Qed.

Lemma has_holds sub l : has_text sub l = true <-> holds sub l.
Proof. apply strstr_holds. Qed.

Definition plain_want (proto : Z) (src : bytes) (dst : option bytes) (port e : Z) (target : bytes) : wanted := mkWant proto (Some src) dst port None 0 e target.

Section Line.
Variables (proto port e : Z) (src target : bytes) (dst : option bytes).
Hypothesis HP : 0 <= proto <= 255. Hypothesis HQ : 0 <= port <= 65535. Hypothesis HE : 0 <= e < 4294967296.
Hypothesis LS : zlen src <= 15. Hypothesis LT : zlen target <= 100.
Hypothesis LD : match dst with Some d => zlen d <= 15 | None => True end.

Lemma exp_search : fmt (dec e ++ $ " ") = dec e ++ $ " " /\ dec e ++ $ " " <> [] /\ ~ In x0a (dec e ++ $ " ").
Proof.
  assert (N : numeral e (dec e)) by (apply dec_num; lia). assert (L : zlen (dec e) <= 10) by (apply dec_len10; lia). split; [|split].
  - apply fmt_id. rewrite zlen_app. change (zlen ($ " ")) with 1. lia.
  - destruct (dec e); discriminate.
  - intro I. apply in_app_or in I as [I|I]; [|cbn in I; intuition discriminate]. exact (digits_nl _ (proj1 (proj2 N)) I).
Qed.
Lemma col x : zlen x <= 100 -> forall l, has_text (fmt ($ " " ++ x ++ $ " ")) l = true <-> column x l.
Proof. intros L l. rewrite fmt_id; [apply has_holds|]. rewrite !zlen_app. change (zlen ($ " ")) with 1. lia. Qed.
Lemma proto_col l : has_text (proto_search proto) l = true <-> exists x, protocol proto x /\ column x l.
Proof.
  assert (NP : numeral proto (dec proto)) by (apply dec_num; lia). assert (LP : zlen (dec proto) <= 5) by (apply dec_len5; lia).
  unfold proto_search. destruct (proto =? 6) eqn:B1; [|destruct (proto =? 17) eqn:B2; [|destruct (proto =? 1) eqn:B3]].
  - apply Z.eqb_eq in B1. rewrite has_holds. split; [intro H; exists ($ "tcp"); unfold protocol; auto|].
    intros (x & [(_ & ->)|[(Q & _)|[(Q & _)|(Q & _)]]] & C); [exact C|lia|lia|lia].
  - apply Z.eqb_eq in B2. rewrite has_holds. split; [intro H; exists ($ "udp"); unfold protocol; auto|].
    intros (x & [(Q & _)|[(_ & ->)|[(Q & _)|(_ & Q & _)]]] & C); [lia|exact C|lia|lia].
  - apply Z.eqb_eq in B3. rewrite has_holds. split; [intro H; exists ($ "icmp"); unfold protocol; auto 6|].
    intros (x & [(Q & _)|[(Q & _)|[(_ & ->)|(_ & _ & Q & _)]]] & C); [lia|lia|exact C|lia].
  - apply Z.eqb_neq in B1, B2, B3. rewrite col by lia. split.
    + intro H. exists (dec proto). split; [unfold protocol; tauto|exact H].
    + intros (x & [(Q & _)|[(Q & _)|[(Q & _)|(_ & _ & _ & N)]]] & C); [lia|lia|lia|]. replace (dec proto) with x; [exact C|]. eapply numeral_unique; eauto; lia.
Qed.
Lemma port_text l : has_text (fmt ($ "dpt:" ++ dec port ++ $ " ")) l = true <-> exists x, numeral port x /\ holds ($ "dpt:" ++ x ++ $ " ") l.
Proof.
  assert (NP : numeral port (dec port)) by (apply dec_num; lia). assert (LP : zlen (dec port) <= 5) by (apply dec_len5; lia).
  rewrite fmt_id by (rewrite !zlen_app; change (zlen ($ "dpt:")) with 4; change (zlen ($ " ")) with 1; lia). rewrite has_holds. split.
  - intro H. exists (dec port). auto.
  - intros (x & N & H). replace (dec port) with x; [exact H|]. eapply numeral_unique; eauto; lia.
Qed.
Lemma matches_tells l : holds (dec e ++ $ " ") l -> line_matches (plain_want proto src dst port e target) l = true <-> tells src dst proto port e target l.
Proof.
  intro HX. unfold line_matches, plain_want, tells, dstip_search. cbn [q_proto q_src q_dst q_port q_nat q_nat_port q_exp q_target].
  rewrite !andb_true_iff, !orb_true_iff, !Z.eqb_eq, proto_col, port_text, (col src) by lia. rewrite (col target) by lia.
  assert (NX : exists x, numeral e x /\ holds (x ++ $ " ") l) by (exists (dec e); split; [apply dec_num; lia|exact HX]).
  assert (D : match dst with Some _ => has_text match dst with Some d => fmt ($ " " ++ d ++ $ " ") | None => [] end l | None => true end = true <-> match dst with Some d => column d l | None => True end).
  { destruct dst as [d|]; [rewrite (col d) by lia; reflexivity|tauto]. }
  rewrite D. destruct (Z.eq_dec proto 0), (Z.eq_dec port 0); tauto.
Qed.
Lemma listed_tells out : rule_listed (plain_want proto src dst port e target) out = true -> exists line, holds line out /\ ~ In x0a line /\ tells src dst proto port e target line.
Proof.
  destruct exp_search as (E1 & E2 & E3). unfold rule_listed. cbn [q_exp q_nat_port plain_want]. rewrite E1.
  destruct (search_output (dec e ++ $ " ") CMD_BUFSIZE out) as [n buf] eqn:S. cbn [Z.eqb orb]. rewrite andb_true_r, andb_true_iff, negb_true_iff, Z.eqb_neq.
  intros (N & M). destruct (line_found _ _ _ _ E2 E3 S N) as (H1 & H2 & H3). exists (chop_newline buf). split; [exact H3|]. split; [exact H2|]. apply matches_tells; assumption.
Qed.
(** The first line with the expiry decides *)
Lemma listed_first out before l after : text_lines out (before ++ l :: after) -> Forall plain_line (before ++ [l]) -> zlen l < 254 ->
  (forall x, In x before -> ~ holds (dec e ++ $ " ") x) -> holds (dec e ++ $ " ") l ->
  rule_listed (plain_want proto src dst port e target) out = true <-> tells src dst proto port e target l.
Proof.
  intros TL PL LL NO HO. destruct exp_search as (E1 & E2 & E3). unfold rule_listed. cbn [q_exp q_nat_port plain_want]. rewrite E1.
  rewrite (search_first (dec e ++ $ " ") CMD_BUFSIZE out before l after) by (auto; change CMD_BUFSIZE with 256; lia).
  assert (l <> []). { intros ->. destruct HO as (u & v & HO). destruct u; [|discriminate]. destruct (dec e); discriminate. }
  rewrite chop_last by assumption. pose proof (zlen_nonneg before). rewrite (proj2 (Z.eqb_neq (zlen before + 1) 0)) by lia. cbn [Z.eqb orb negb andb].
  rewrite andb_true_r. apply matches_tells. exact HO.
Qed.
Lemma tells_longer l l' : holds l l' -> tells src dst proto port e target l -> tells src dst proto port e target l'.
Proof.
  intros H (A & B & C & D & F & G). unfold tells, column in *. repeat match goal with |- _ /\ _ => split end.
  - eapply holds_trans; eauto.
  - eapply holds_trans; eauto.
  - intro N. destruct (C N) as (x & X & Y). exists x. split; [exact X|eapply holds_trans; eauto].
  - intro N. destruct (D N) as (x & X & Y). exists x. split; [exact X|eapply holds_trans; eauto].
  - destruct F as (x & X & Y). exists x. split; [exact X|eapply holds_trans; eauto].
  - destruct dst; [eapply holds_trans; eauto|exact I].
Qed.
End Line.

(** ** The rule of the line *)
Lemma piece l x y : ~ In x0a l -> holds l (x ++ [x0a] ++ y) -> holds l x \/ holds l y.
Proof.
  intro N. revert l N. induction x as [|c x IH]; intros l N (a & b & E).
  - cbn [app] in E. destruct a as [|a0 a].
    + destruct l as [|l0 l]; [left; apply holds_refl|]. injection E as <- _. exfalso. apply N. left. reflexivity.
    + injection E as _ E. right. exists a, b. exact E.
  - cbn [app] in E. destruct a as [|a0 a].
    + cbn [app] in E. destruct l as [|l0 l]; [left; exists [], (c :: x); reflexivity|]. injection E as -> E. left.
      assert (G : forall x l, ~ In x0a l -> x ++ x0a :: y = l ++ b -> begins l x).
      { clear. induction x as [|c x IH]; intros [|l0 l] N E; [exists []; reflexivity| |exists (c :: x); reflexivity|].
        - injection E as <- _. exfalso. apply N. left. reflexivity.
        - injection E as -> E. destruct (IH l) as (z & ->); [intro; apply N; right; assumption|exact E|]. exists z. reflexivity. }
      destruct (G x l) as (z & ->); [intro; apply N; right; assumption|exact E|]. exists [], z. reflexivity.
    + injection E as -> E. destruct (IH l N) as [(u & v & ->)|H]; [exists a, b; exact E|left; exists (a0 :: u), v; reflexivity|right; exact H].
Qed.
Lemma piece_rule K l : ~ In x0a l -> l <> [] -> forall rs k, holds l (rule_lines K k rs) -> exists r x, In r rs /\ line_of K r x /\ holds l x.
Proof.
  intros N NE rs. induction rs as [|r rs IH]; intros k H.
  - destruct H as (a & b & H). destruct a; [|discriminate]. destruct l; [easy|discriminate].
  - cbn [rule_lines] in H. replace (number K k ++ [" "%byte] ++ show K r ++ [x0a] ++ rule_lines K (k + 1) rs)
      with ((number K k ++ [" "%byte] ++ show K r) ++ [x0a] ++ rule_lines K (k + 1) rs) in H by (now rewrite <- !app_assoc).
    apply piece in H as [H|H]; [|destruct (IH _ H) as (r' & x & I & R)|exact N].
    + exists r, (number K k ++ [" "%byte] ++ show K r). split; [left; reflexivity|]. split; [exists k; reflexivity|exact H].
    + exists r', x. split; [right; exact I|exact R].
Qed.
