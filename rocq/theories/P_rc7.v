(** Proofs about the configuration of the client: accepted entries, settings that can be used. *)
From Verif Require Import Bytes M_accfile M_base64 M_util M_message M_codec M_cipher M_ctx M_access M_replay M_cycle M_incoming M_conf M_codec M_client M_send
  S_base64 S_text S_conf S_accfile S_client S_send P_bytes P_base64 P_util P_util2 P_access P_replay P_conf P_accfile P_accfile2 P_accfile3 P_accfile4 P_accfile6 P_message P_codec P_ctx2 P_client P_client4 P_incoming5 M_rc S_rc P_rc P_rc2 P_rc3 P_rc4 P_rc5 P_rc6.
From Coq Require Import Init.Byte List ZArith Bool Lia.
Import ListNotations.
Open Scope Z_scope.

Local Ltac ands := repeat match goal with |- _ /\ _ => split end.

(** ** Accepted entries *)
Lemma offset_digits_inv v : forall d d' k, offset_digits v d = Some (d', k) -> exists ds, d' = d ++ ds /\ all_digits ds /\ (forall c, In c ds -> In c v) /\ (zlen d <= 8 -> zlen d' <= 8) /\ 1 <= k <= 86400.
Proof.
  assert (ST : forall v (d : bytes), exists ds : bytes, d = d ++ ds /\ all_digits ds /\ (forall c, In c ds -> In c v) /\ (zlen d <= 8 -> zlen d <= 8)).
  { intros u d. exists []. rewrite app_nil_r. ands; auto; [constructor|intros c []]. }
  induction v as [|c v IH]; intros d d' k; cbn [offset_digits].
  - intros E. injection E as <- <-. destruct (ST [] d) as (ds & A & B & C & D). exists ds. ands; auto; lia.
  - assert (DONE : forall z, 1 <= z <= 86400 -> Some (d, z) = Some (d', k) ->
      exists ds, d' = d ++ ds /\ all_digits ds /\ (forall x, In x ds -> In x (c :: v)) /\ (zlen d <= 8 -> zlen d' <= 8) /\ 1 <= k <= 86400).
    { intros z Z E. injection E as <- <-. destruct (ST (c :: v) d) as (ds & A & B & C & D). exists ds. ands; auto; lia. }
    destruct (isdigit c) eqn:DC.
    + destruct (9 <=? zlen d + 1) eqn:Q; [discriminate|]. intros E. apply IH in E as (ds & A & B & C & D & K). exists (c :: ds). ands; try lia.
      * rewrite A, <- app_assoc. reflexivity.
      * constructor; [now apply isdigit_digit|exact B].
      * intros x [->|I]; [now left|right; auto].
      * intros L. apply D. rewrite zlen_app, zlen_cons, zlen_nil. lia.
    + destruct (_ || _); [apply DONE; lia|]. destruct (_ || _); [apply DONE; lia|]. destruct (_ || _); [apply DONE; lia|].
      intros E. apply IH in E as (ds & A & B & C & D & K). exists ds. ands; auto; try lia. intros x I. right. auto.
Qed.
Lemma ok_off_digits v : ok_off v = true -> exists ds, ds <> [] /\ (forall c, In c ds -> In c v) /\ all_digits ds /\ zlen ds <= 8 /\ decimal ds <= 65536.
Proof.
  unfold ok_off, time_offset. destruct (offset_digits v []) as [[d k]|] eqn:O; [|discriminate]. destruct d as [|c d]; [discriminate|].
  apply offset_digits_inv in O as (ds & A & B & C & D & K). cbn [app] in A. subst ds. specialize (D ltac:(vm_compute; discriminate)).
  destruct (strtol_wrapper (c :: d) 0 65536) as [n e] eqn:W. destruct (_ || _); [discriminate|]. destruct e; try discriminate. intros _.
  exists (c :: d). ands; auto; [discriminate|].
  pose proof (decimal_bound _ B) as BD. assert (B8 : 10 ^ zlen (c :: d) <= 10 ^ 8) by (apply Z.pow_le_mono_r; lia). change (10 ^ 8) with 100000000 in B8.
  destruct (strtol_wrapper_reads _ 0 65536 _ (digits_integer _ B ltac:(discriminate)) ltac:(lia) _ _ W) as [-> _].
  apply strtol_wrapper_range in W as (_ & W & _). apply W. lia.
Qed.
Lemma off_range v x : ok_off v = true -> off_value v = Some x -> 0 <= x < 2147483648.
Proof.
  unfold ok_off, off_value, time_offset. destruct (offset_digits v []) as [[d k]|] eqn:O; [|discriminate]. destruct d as [|c d]; [discriminate|].
  apply offset_digits_inv in O as (ds & A & B & C & D & K).
  destruct (strtol_wrapper (c :: d) 0 65536) as [n e] eqn:W. destruct (_ || _) eqn:Q; [discriminate|]. destruct e; try discriminate. intros _ E. injection E as <-.
  apply strtol_wrapper_range in W as (W & _ & _). apply orb_false_iff in Q as [Q1 Q2]. nia.
Qed.
Lemma valid_ip_iff s : valid_ip s = true -> an_address s /\ zlen s <= 16.
Proof.
  unfold valid_ip, an_address. intros V. apply is_valid_ipv4_iff in V; [|pose proof (zlen_nonneg s); lia]. destruct V as [L (a & b & c & d & T)].
  rewrite P_rc4.ztake_all in T by lia. split; [eauto|lia].
Qed.
Lemma sets_len l n v : sets l n v -> zlen v <= zlen l.
Proof.
  intros (_ & _ & sp1 & nm & sp2 & rest & -> & _). rewrite !zlen_app. pose proof (zlen_nonneg sp1). pose proof (zlen_nonneg nm).
  pose proof (zlen_nonneg sp2). pose proof (zlen_nonneg rest). lia.
Qed.
Lemma sets_in l n v : sets l n v -> forall c, In c v -> In c l.
Proof. intros (_ & _ & sp1 & nm & sp2 & rest & -> & _) c I. rewrite !in_app_iff. auto. Qed.
Lemma b64_text v : zlen v < 65536 -> is_base64 v (zlen v) = true -> base64_text v.
Proof.
  intros L. rewrite is_base64_take by (pose proof (zlen_nonneg v); lia). rewrite P_rc4.ztake_all by lia. intros F. rewrite forallb_forall in F. apply Forall_forall. intros c C.
  apply F in C. unfold b64_class in C. rewrite !orb_true_iff in C. destruct C as [[[C|C]|C]|C]; [left|right..].
  - unfold letter_or_digit, digit. unfold isalnum, isalpha, isupper, islower, isdigit in C. lia.
  - right; left. now apply beq_eq.
  - left. now apply beq_eq.
  - right; right. now apply beq_eq.
Qed.
Lemma taken_allowed n v : zlen v < 65536 -> taken (n, v) -> allowed n v.
Proof.
  intros L T. apply taken_good in T as [G K]. unfold good in G. cbn [fst snd] in G, K. split; [exact K|..].
  - intros [->| ->]; change (0 <=? hmac_digest_strtoint v = true) in G; exists (hmac_digest_strtoint v); apply digest_one_of; lia.
  - intros ->. change (0 <=? enc_mode_strtoint v = true) in G. exists (enc_mode_strtoint v). apply mode_one_of. lia.
  - intros ->. change (0 <=? name_value protos v = true) in G. exists (name_value protos v). apply proto_one_of. lia.
  - intros I. exists (nv v). apply ok_num_in; [lia|]. which I; exact G.
  - intros ->. exists (nv v). apply ok_num_in; [lia|exact G].
  - intros ->. change (strcaseeq v ($ "source") || strcaseeq v ($ "resolve") || valid_ip (ztake 15 v) = true) in G.
    rewrite !orb_true_iff in G. destruct G as [[G|G]|G]; [left; now apply strcaseeq_lower|right; left; now apply strcaseeq_lower|].
    right; right. exact (proj1 (valid_ip_iff _ G)).
  - intros I. apply b64_text; [exact L|]. which I; exact G.
  - intros ->. change (ok_off (if minus_value v then tl v else v) = true) in G. apply ok_off_digits in G as (ds & A & B & C & D & E). exists ds. ands; auto.
    intros c I. apply B in I. destruct (minus_value v); [|exact I]. destruct v; [destruct I|now right].
Qed.

(** ** Settings that can be used *)
Section Usable.
Variables (r : list (bytes * bytes)) (args : list arg) (o1 o2 o : copts).
Let c := command args.
Hypothesis (TR : Forall taken r) (M1 : moved1 c defaults o1) (MV : moved (r ++ c) o1 o2) (CH : checked o2 o) (GC : Forall good c).
Lemma given_true s : given s = true <-> s <> [].
Proof. destruct s; cbn; split; congruence. Qed.
Lemma us_usable : usable o.
Proof.
  pose proof (set_settings r args o1 o2 o TR M1 MV CH GC) as SE. fold c in SE.
  assert (SP : sends o -> special o2 = false).
  { intros (A & B & C & D & E). rewrite (special_same o2 o CH). unfold is_set. rewrite A, B, C, D, E. reflexivity. }
  assert (TX : forall f, f <> t_stanza -> f <> t_agent -> txt o f = txt o2 f) by exact (ch_txt _ _ CH).
  assert (NX : forall f, f <> q_resolve -> f <> q_hmac_type -> num o f = num o2 f) by exact (ch_num _ _ CH).
  split.
  - intros S. rewrite TX by discriminate. apply given_true, (ch_server _ _ CH), SP, S.
  - intros S. destruct (txt o t_ip) as [|x t] eqn:T; [right|left; discriminate]. destruct S as (A & B & C & D & E). apply (se_resolve_url _ _ _ SE); auto.
  - intros N. destruct (looked_up o) eqn:L; [left; now apply looked_up_iff|right]. unfold looked_up in L. rewrite TX in * by discriminate.
    apply given_true in N. apply valid_ip_iff. exact (proj1 (ch_ip _ _ CH N L)).
  - intros N. rewrite TX in * by discriminate. rewrite NX by discriminate. apply given_true in N. destruct (ch_spoof _ _ CH N) as [V P]. split; [apply (valid_ip_iff _ V)|cbn [In]; lia].
  - intros N. rewrite TX in * by discriminate. rewrite NX by discriminate. apply given_true in N. exact (ch_proxy _ _ CH N).
  - intros N. rewrite TX by discriminate. rewrite NX in N by discriminate. apply given_true, (ch_gpg _ _ CH). unfold is_set. now rewrite N.
  - intros N. rewrite NX in * by discriminate. pose proof (ch_asym _ _ CH N) as U. unfold is_set in U.
    assert (S := set_switch r args o1 o2 o M1 MV CH ($ "USE_GPG") q_use_gpg ltac:(unfold switches; cbn [In]; tauto)). rewrite NX in S by discriminate.
    destruct (switch_bit _ _ S) as [E|E]; rewrite E in *; [discriminate U|reflexivity].
  - intros N. rewrite NX in * by discriminate. pose proof (ch_legacy _ _ CH N) as U. unfold is_set in U. destruct (num o2 q_use_hmac =? 0) eqn:Q; [lia|discriminate U].
Qed.
Lemma run_inv {X} (P : X -> Prop) (t : bytes -> bytes -> option X) b d :
  (forall n v x, In (n, v) b -> t n v = Some x -> P x) -> P d -> P (run t b d).
Proof.
  intros H D. induction b as [|[n v] b IH] using rev_ind; [exact D|]. rewrite run_snoc.
  assert (PB : P (run t b d)). { apply IH. intros m w x I. apply (H m w). apply in_or_app. now left. }
  destruct (t n v) eqn:T; cbn [upd]; [|exact PB]. apply (H n v); [apply in_or_app; right; now left|exact T].
Qed.
Lemma touch_fits f n v x : touch_t f n v = Some x -> no_nul v -> no_nul x.
Proof.
  assert (FIT : forall g w, no_nul w -> no_nul (fit g w)). { intros g w N. unfold fit. destruct (size g); [now apply no_nul_ztake|exact N]. }
  assert (ZZ : no_nul ($ "0.0.0.0")) by (intros Q; vm_compute in Q; intuition discriminate).
  assert (CS : forall w, no_nul w -> no_nul (chop_slash w)).
  { intros w N. unfold chop_slash. destruct (_ && _); [|exact N]. destruct w as [|y w] using rev_ind; [exact N|]. rewrite removelast_last. apply no_nul_app in N. tauto. }
  intros T N. destruct f; cbn [touch_t] in T; cbv zeta in T;
    repeat (match type of T with (if ?b then _ else _) = _ => destruct b end); try discriminate T; injection T as <-; auto.
Qed.
Lemma touch_size f n v x k : size f = Some k -> 8 <= k -> touch_t f n v = Some x -> zlen x <= k - 1.
Proof.
  intros S K T. assert (FIT : forall w, zlen (fit f w) <= k - 1).
  { intros w. unfold fit. rewrite S. unfold ztake, zlen. pose proof (firstn_le_length (Z.to_nat (k - 1)) w). lia. }
  destruct f; cbn [touch_t] in T; cbv zeta in T;
    repeat (match type of T with (if ?b then _ else _) = _ => destruct b end); try discriminate T; injection T as <-; try apply FIT.
  all: change (zlen ($ "0.0.0.0")) with 7; lia.
Qed.
Hypothesis NR : forall n v, In (n, v) (r ++ c) -> no_nul v.
Lemma us_no_nul f : unseen_t f = false -> f <> t_stanza -> f <> t_agent -> no_nul (txt o f).
Proof.
  intros U S A. rewrite (set_txt r args o1 o2 o M1 MV CH f U S A). apply run_inv; [|intros []].
  intros n v x I T. eapply touch_fits; [exact T|]. eapply NR; exact I.
Qed.
Lemma us_size f k : unseen_t f = false -> f <> t_stanza -> f <> t_agent -> size f = Some k -> 8 <= k -> zlen (txt o f) <= k - 1.
Proof.
  intros U S A Z K. rewrite (set_txt r args o1 o2 o M1 MV CH f U S A). apply (run_inv (fun x => zlen x <= k - 1)); [|rewrite zlen_nil; lia].
  intros n v x I T. eapply touch_size; eauto.
Qed.
Lemma us_num (P : Z -> Prop) f : unseen f = false -> f <> q_resolve -> f <> q_hmac_type -> skip1 f = false -> first_n f = (fun _ _ => None) -> P (num defaults f) ->
  (forall n v x, goodb n v = true -> touch_n f n v = Some x -> P x) -> P (num o f).
Proof.
  intros U R H K F D T. rewrite (set_num r args o1 o2 o MV CH f U R H), (set_num1 args o1 M1 f K F). apply run_inv; [|exact D].
  intros n v x I X. apply (T n v); [|exact X]. pose proof (set_good r args TR GC) as G. rewrite Forall_forall in G. exact (G _ I).
Qed.
Lemma is_eq n p : is n p = true -> n = p.
Proof. apply bseq_eq. Qed.
Lemma us_port f : f = q_nat_port \/ f = q_dport \/ f = q_sport -> 0 <= num o f <= 65535.
Proof.
  intros F. apply (us_num (fun x => 0 <= x <= 65535)); try (destruct F as [->|[->| ->]]; (reflexivity || discriminate)).
  - destruct F as [->|[->| ->]]; cbn; lia.
  - intros n v x G T. destruct F as [->|[->| ->]]; cbn [touch_n] in T; (destruct (is n _) eqn:I; [|discriminate T]); injection T as <-; apply is_eq in I; subst n;
      apply (ok_num_in 65535 v ltac:(lia) G).
Qed.
Lemma us_timeout : -1 <= num o q_timeout <= 131072.
Proof.
  apply (us_num (fun x => -1 <= x <= 131072)); try (reflexivity || discriminate); [cbn; lia|].
  intros n v x G T. cbn [touch_n] in T. destruct (is n _) eqn:I; [|destruct (is n ($ "-f")) eqn:J; [|discriminate T]]; injection T as <-.
  - apply is_eq in I; subst n. pose proof (proj1 (ok_num_in 65536 v ltac:(lia) G)). lia.
  - apply is_eq in J; subst n. pose proof (proj1 (ok_num_in 131072 v ltac:(lia) G)). lia.
Qed.
Lemma us_offset f : f = q_plus \/ f = q_minus -> 0 <= num o f < 2147483648.
Proof.
  intros F. apply (us_num (fun x => 0 <= x < 2147483648)); try (destruct F as [->| ->]; (reflexivity || discriminate)).
  - destruct F as [->| ->]; cbn; lia.
  - intros n v x G T. destruct F as [->| ->]; cbn [touch_n] in T;
      (destruct (is n _) eqn:I in T; [apply is_eq in I; subst n; exact (off_range _ _ G T)|];
       destruct (is n ($ "TIME_OFFSET")) eqn:J; [|discriminate T]; apply is_eq in J; subst n; change (ok_off (if minus_value v then tl v else v) = true) in G;
       destruct (minus_value v); try discriminate T; exact (off_range _ _ G T)).
Qed.
Lemma us_agent : no_nul (txt o t_agent) /\ zlen (txt o t_agent) <= 99.
Proof.
  assert (A2 : txt o2 t_agent = run (touch_t t_agent) (r ++ c) []).
  { rewrite (run_moved_t _ _ _ t_agent MV eq_refl). f_equal. destruct M1 as (T & _). rewrite (T t_agent eq_refl). apply run_none. reflexivity. }
  assert (B : no_nul (txt o2 t_agent) /\ zlen (txt o2 t_agent) <= 99).
  { rewrite A2. apply (run_inv (fun x => no_nul x /\ zlen x <= 99)); [|split; [intros []|rewrite zlen_nil; lia]].
    intros n v x I T. split; [eapply touch_fits; [exact T|eapply NR; exact I]|]. exact (touch_size t_agent n v x 100 eq_refl ltac:(lia) T). }
  rewrite (ch_agent _ _ CH). destruct (_ && _); [|exact B]. split; [intros Q; vm_compute in Q; intuition discriminate|vm_compute; discriminate].
Qed.
Lemma us_options file p1 p2 ip : sends o -> txt o t_server <> [] -> letter_or_digit (hd x00 (txt o t_server)) ->
  no_nul ip -> ~ In ","%byte ip -> zlen ip <= 15 -> options_ok (to_options file p1 p2 ip o).
Proof.
  intros S N L I1 I2 I3.
  assert (T : forall f k, unseen_t f = false -> f <> t_stanza -> f <> t_agent -> size f = Some k -> 8 <= k -> no_nul (txt o f) /\ zlen (txt o f) <= k - 1).
  { intros f k U A B Z K. split; [now apply us_no_nul|now apply us_size]. }
  split; cbn [to_options o_server o_ip o_access o_command o_nat_access o_nat_port o_timeout o_plus o_minus o_user o_key o_hmac].
  - destruct (T t_server 50) as [A B]; try (reflexivity || discriminate || lia). unfold server_name. ands; auto; lia.
  - auto.
  - apply (T t_access 1024); (reflexivity || discriminate || lia).
  - apply (T t_command 1024); (reflexivity || discriminate || lia).
  - apply (T t_nat 1024); (reflexivity || discriminate || lia).
  - apply us_port; auto.
  - apply us_timeout.
  - split; apply us_offset; auto.
  - apply (T t_user 30); (reflexivity || discriminate || lia).
  - unfold key_source_of. destruct (is_set o q_have_key); [apply (T t_key 129); (reflexivity || discriminate || lia)|].
    destruct (is_set o q_have_key64); [exact I|]. destruct (given _); exact I.
  - unfold hmac_source_of. destruct (is_set o q_have_hmac); [apply (T t_hmac 129); (reflexivity || discriminate || lia)|].
    destruct (is_set o q_have_hmac64); [exact I|]. destruct (is_set o q_use_hmac); [destruct (given _); exact I|exact I].
Qed.
Lemma us_route w : (forall h a, w_addr w h = Some a -> 0 <= a < 4294967296) -> route_ok w (to_route o).
Proof.
  intros W. split; cbn [to_route x_dport x_sport x_agent].
  - apply us_port; auto.
  - apply us_port; auto.
  - apply us_agent.
  - exact W.
Qed.
End Usable.
