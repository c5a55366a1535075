(** Proofs about the configuration of the client: the saved settings, field by field. *)
From Verif Require Import Bytes M_accfile M_base64 M_util M_message M_codec M_cipher M_ctx M_access M_replay M_cycle M_incoming M_conf M_codec M_client M_send
  S_base64 S_text S_conf S_accfile S_client S_send P_bytes P_base64 P_util P_util2 P_access P_replay P_conf P_accfile P_accfile2 P_accfile3 P_accfile4 P_accfile6 P_message P_codec P_ctx2 P_client P_client4 M_rc S_rc P_rc P_rc2 P_rc3 P_rc4 P_rc5 P_rc6 P_rc9 P_rc10 P_rc11.
From Coq Require Import Init.Byte List ZArith Bool Lia.
Import ListNotations.
Open Scope Z_scope.

Local Ltac ands := repeat match goal with |- _ /\ _ => split end.

Lemma fit_fit f v : fit f (fit f v) = fit f v.
Proof.
  unfold fit. destruct (size f) as [k|] eqn:S; [|reflexivity]. assert (0 <= k - 1) by (destruct f; cbn in S; try discriminate S; injection S as <-; lia).
  apply ztake_all. unfold ztake, zlen. rewrite firstn_length. lia.
Qed.
Lemma not_source v : valid_ip v = true -> strcaseeq v ($ "source") = false.
Proof.
  intros V. apply not_true_is_false. intros S. rewrite strcaseeq_iff in S. apply bseq_eq in S. change (map lower ($ "source")) with ($ "source") in S.
  assert (L : forall c (x y : byte), lower c = x -> In x [ "s"%byte; "o"%byte; "u"%byte; "r"%byte; "c"%byte; "e"%byte] -> ~ In c ["0"%byte; "1"%byte; "2"%byte; "3"%byte; "4"%byte; "5"%byte; "6"%byte; "7"%byte; "8"%byte; "9"%byte; "."%byte]).
  { intros c x y <-. destruct c; vm_compute; intuition discriminate. }
  destruct v as [|a [|b [|c [|d [|e [|f [|]]]]]]]; try discriminate S. clear L. injection S as A B C D E F.
  destruct a; try discriminate A; destruct b; try discriminate B; destruct c; try discriminate C; destruct d; try discriminate D; destruct e; try discriminate E; destruct f; try discriminate F; discriminate V.
Qed.
Lemma nv_dec n : 0 <= n <= 131072 -> nv (dec_i n) = n.
Proof.
  intros R. unfold dec_i. destruct (Z.ltb_spec n 0); [lia|]. destruct (dec_spec n) as (D & E & L & _); [lia|].
  assert (NE : dec n <> []) by (intros Q; rewrite Q in L; rewrite zlen_nil in L; lia).
  destruct (strtol_wrapper (dec n) 0 0) as [x e] eqn:W. unfold nv. rewrite W. cbn [fst].
  destruct (strtol_wrapper_reads _ 0 0 _ (digits_integer _ D NE) ltac:(lia) _ _ W) as [-> _]. exact E.
Qed.
Lemma off_dec n : 0 <= n <= 65536 -> off_value (dec_i n) = Some n /\ ok_off (dec_i n) = true.
Proof.
  intros R. unfold dec_i. destruct (Z.ltb_spec n 0); [lia|]. destruct (dec_spec n) as (D & E & L & U); [lia|]. specialize (U 5 ltac:(lia) ltac:(lia)).
  unfold off_value, ok_off, time_offset. pose proof (offset_digits_read (dec n) [] 1) as O. rewrite app_nil_r in O.
  assert (IU : In ([], 1) units) by (unfold units; cbn [In]; tauto). specialize (O IU D [] ltac:(rewrite zlen_nil; lia)). rewrite O. cbn [app].
  destruct (dec n) as [|c r] eqn:DN; [rewrite zlen_nil in L; lia|]. rewrite <- DN in *.
  assert (NE : dec n <> []) by (rewrite DN; discriminate).
  destruct (strtol_wrapper (dec n) 0 65536) as [x e] eqn:W.
  destruct (strtol_wrapper_reads _ 0 65536 _ (digits_integer _ D NE) ltac:(lia) _ _ W) as [-> X]. rewrite E in *. assert (XE : e = STRTOL_OK) by (apply X; lia). subst e.
  rewrite Z.mul_1_r. destruct (Z.ltb_spec n (-2147483648)); [lia|]. destruct (Z.ltb_spec 2147483647 n); [lia|]. cbn [orb]. auto.
Qed.
Lemma minus_dec n : 0 <= n <= 131072 -> minus_value (dec_i n) = false.
Proof.
  intros R. unfold dec_i. destruct (Z.ltb_spec n 0); [lia|]. destruct (dec_spec n) as (D & E & L & U); [lia|]. destruct (dec n) as [|c r]; [reflexivity|].
  apply Forall_inv in D. cbn [minus_value]. unfold digit in D. destruct (beq_spec c "-"%byte) as [->|]; [|reflexivity]. change (bv "-"%byte) with 45 in D. lia.
Qed.
Lemma digest_back z v : one_of digests v z -> 1 <= z <= 7 /\ hmac_digest_strtoint (value_name digest_names ($ "Unknown") z) = z.
Proof.
  intros (n & I & _). unfold digests in I. cbn [In] in I. repeat (destruct I as [I|I]; [injection I as <- <-; split; [lia|vm_compute; reflexivity]|]). contradiction.
Qed.
Lemma mode_back z v : one_of modes v z -> enc_mode_strtoint (value_name mode_names [] z) = z.
Proof. intros (n & I & _). unfold modes in I. cbn [In] in I. repeat (destruct I as [I|I]; [injection I as <- <-; vm_compute; reflexivity|]). contradiction. Qed.
Lemma proto_back z v : one_of protocols v z -> name_value protos (value_name protos [] z) = z.
Proof. intros (n & I & _). unfold protocols in I. cbn [In] in I. repeat (destruct I as [I|I]; [injection I as <- <-; vm_compute; reflexivity|]). contradiction. Qed.

Section Fields.
Variables (args : list arg) (o : copts) (m : mask).
Hypothesis SAV : forall a, In a args -> savable (fst a) = true.
Hypothesis MK : forall x, x <> V_VERBOSE -> mem_var x m = given_var x args.
Hypothesis GC : Forall good (command args).
Hypothesis OW : Forall (fun e => one_word (snd e)) (saved o m).
Let c := command args.

Lemma no_hmac_file : mem_var V_HMAC_KEY_FILE m = false.
Proof.
  rewrite MK by discriminate. apply not_true_is_false. unfold given_var. rewrite existsb_exists. intros ([k v] & I & M). apply SAV in I. destruct k; cbn in M, I; discriminate.
Qed.
Lemma saved_word n x v : In (n, x) var_array -> mem_var x m = true -> var_text x o = Some v -> one_word v.
Proof.
  intros I M V. rewrite Forall_forall in OW. change v with (snd (n, v)). apply OW. unfold saved. apply in_flat_map. exists (n, x). split; [exact I|]. rewrite M, V. now left.
Qed.
Ltac others M I NE V := unfold var_array in I; cbn [In] in I;
  repeat (destruct I as [I|I]; [injection I; clear I; intros <- <-; first [reflexivity | exfalso; apply NE; reflexivity | discriminate V | exfalso; rewrite no_hmac_file in M; discriminate M | idtac]|]); try contradiction.
Lemma others_t f x n n' x' v : In (f, x, n) ttable -> In (n', x') var_array -> n' <> n -> mem_var x' m = true -> var_text x' o = Some v -> touch_t f n' v = None.
Proof.
  intros T I NE M V. unfold ttable in T. cbn [In] in T.
  repeat (destruct T as [T|T]; [injection T; clear T; intros <- <- <-; others M I NE V|]); contradiction.
Qed.
Lemma others_n f x n n' x' v : In (f, x, n) ntable -> In (n', x') var_array -> n' <> n -> mem_var x' m = true -> var_text x' o = Some v -> touch_n f n' v = None.
Proof.
  intros T I NE M V. unfold ntable in T. cbn [In] in T.
  repeat (destruct T as [T|T]; [injection T; clear T; intros <- <- <-; others M I NE V|]); contradiction.
Qed.
Lemma table_var_t f x n : In (f, x, n) ttable -> In (n, x) var_array /\ x <> V_VERBOSE.
Proof. unfold ttable. cbn [In]. intros T. repeat (destruct T as [T|T]; [injection T; clear T; intros <- <- _; split; [unfold var_array; cbn [In]; tauto|discriminate]|]). contradiction. Qed.
Lemma table_var_n f x n : In (f, x, n) ntable -> In (n, x) var_array /\ x <> V_VERBOSE.
Proof. unfold ntable. cbn [In]. intros T. repeat (destruct T as [T|T]; [injection T; clear T; intros <- <- _; split; [unfold var_array; cbn [In]; tauto|discriminate]|]). contradiction. Qed.
Lemma cut_word v : one_word (cut v) -> cut v = v.
Proof.
  intros (L & _). unfold cut in *. change (LINE_LEN - 1) with 1023 in *. apply ztake_all. destruct (Z_le_gt_dec (zlen v) 1023); [lia|]. rewrite zlen_ztake in L by lia. lia.
Qed.
(** Texts *)
Lemma text_back f x n d : In (f, x, n) ttable -> f <> t_agent -> (f = t_ip -> looked_up o = false /\ (given (txt o t_ip) = true -> valid_ip (txt o t_ip) = true)) ->
  txt o f = run (touch_t f) c d -> run (touch_t f) (saved o m) d = txt o f.
Proof.
  intros T NA IP E. destruct (table_var_t _ _ _ T) as [IV NV]. rewrite (run_saved (touch_t f) o m n x d IV) by (intros n' x' v; exact (others_t f x n n' x' v T)).
  assert (TG : touchedb (touch_t f) c = mem_var x m).
  { rewrite MK by exact NV. apply touched_given. intros a I. pose proof (table_t a (SAV a I)) as F. rewrite Forall_forall in F. exact (F _ T). }
  destruct (run_cases (touch_t f) c) as [[A B]|(A & p & v & y & I & TP & R)]; rewrite TG in A; rewrite A; [rewrite E; symmetry; apply B|].
  rewrite R in E. assert (FY : fit f y = y).
  { unfold ttable in T. cbn [In] in T. clear - T TP. repeat (destruct T as [T|T]; [injection T; clear T; intros <- <- <-; cbn [touch_t] in TP; cbv zeta in TP;
      repeat match type of TP with (if ?b then _ else _) = _ => destruct b end; try discriminate TP; injection TP as <-; (apply fit_fit || reflexivity)|]). contradiction. }
  assert (WO : forall w, var_text x o = Some w -> one_word w) by (intros w; apply (saved_word n x w IV A)).
  clear TG R TP. unfold ttable in T. cbn [In] in T.
  repeat (destruct T as [T|T]; [injection T; clear T; intros <- <- <-; cbn [var_text];
    try (match goal with |- upd (touch_t ?g _ (txt o ?g)) d = _ => change (upd (Some (fit g (txt o g))) d = txt o g) end; cbn [upd]; rewrite E; exact FY)|]); try contradiction.
  - (* ip *)
    destruct (IP eq_refl) as [LU VI]. specialize (WO _ eq_refl). assert (GV : given (txt o t_ip) = true) by (destruct WO as (_ & NE & _); destruct (txt o t_ip); [congruence|reflexivity]).
    specialize (VI GV). cbn [touch_t]. change (is ($ "ALLOW_IP") ($ "-s")) with false. change (is ($ "ALLOW_IP") ($ "-a")) with false. change (is ($ "ALLOW_IP") ($ "ALLOW_IP")) with true. cbv iota.
    rewrite (not_source _ VI). replace (strcaseeq (txt o t_ip) ($ "resolve")) with false.
    2: { symmetry. apply not_true_is_false. intros Q. unfold looked_up in LU. rewrite strcaseeq_iff in Q. apply bseq_eq in Q.
         assert (L7 : zlen (txt o t_ip) = 7). { unfold zlen. rewrite <- (map_length lower), Q. reflexivity. }
         rewrite ztake_all in LU by lia. rewrite (map_ext _ _ tolower_lower), Q in LU. discriminate LU. }
    cbn [upd]. rewrite E. exact FY.
  - specialize (WO _ eq_refl). rewrite (cut_word _ WO). change (upd (Some (fit t_url (txt o t_url))) d = txt o t_url). cbn [upd]. now rewrite E.
  - specialize (WO _ eq_refl). rewrite (cut_word _ WO). change (upd (Some (fit t_wget (txt o t_wget))) d = txt o t_wget). cbn [upd]. now rewrite E.
Qed.
(** Numbers *)
Lemma number_back f x n d : In (f, x, n) ntable -> (f = q_timeout -> num o q_timeout <= 65536) ->
  (f = q_hmac_type -> num o f = run (touch_n f) c d \/ run (touch_n f) c d = 0) -> (f <> q_hmac_type -> num o f = run (touch_n f) c d) ->
  run (touch_n f) (saved o m) d = run (touch_n f) c d.
Proof.
  intros T TI EH E. destruct (table_var_n _ _ _ T) as [IV NV]. rewrite (run_saved (touch_n f) o m n x d IV) by (intros n' x' v; exact (others_n f x n n' x' v T)).
  assert (TG : touchedb (touch_n f) c = mem_var x m).
  { rewrite MK by exact NV. apply touched_given. intros a I. pose proof (table_n a (SAV a I)) as F. apply Forall_inv_tail in F. rewrite Forall_forall in F. exact (F _ T). }
  destruct (run_cases (touch_n f) c) as [[A B]|(A & p & v & y & I & TP & R)]; rewrite TG in A; rewrite A; [symmetry; apply B|].
  rewrite R in *. assert (G : good (p, v)) by (rewrite Forall_forall in GC; apply GC, I).
  clear TG R. unfold ntable in T. cbn [In] in T.
  assert (NUM : forall hi q, (if is p q then Some (nv v) else None) = Some y -> (is p q = true -> ok_num hi v = true) -> 0 <= hi <= 131072 -> nv (dec_i y) = y).
  { intros hi q Q K H. destruct (is p q); [|discriminate Q]. injection Q as <-. destruct (ok_num_in hi v ltac:(lia) (K eq_refl)) as [? _]. apply nv_dec. lia. }
  assert (GP : forall hi q, (forall w, goodb q w = ok_num hi w) -> is p q = true -> ok_num hi v = true).
  { intros hi q H Q. apply bseq_eq in Q. subst q. rewrite <- H. exact G. }
  assert (YES : forall q, (if is p q then if is_yes v then Some 1 else None else None) = Some y -> y = 1).
  { intros q Q. destruct (is p q); [|discriminate Q]. destruct (is_yes v); [|discriminate Q]. now injection Q as <-. }
  destruct T as [T|T].
  { injection T; clear T; intros <- <- <-. cbn [touch_n] in TP. destruct (is p ($ "DIGEST_TYPE")) eqn:P; [|discriminate TP]. apply bseq_eq in P. subst p. injection TP as <-.
    cbn [var_text]. rewrite E by discriminate. change (upd (Some (hmac_digest_strtoint (value_name digest_names ($ "Unknown") (hmac_digest_strtoint v)))) d = hmac_digest_strtoint v).
    cbn [upd]. apply (digest_back _ v). apply digest_one_of. change (0 <=? hmac_digest_strtoint v = true) in G. lia. }
  destruct T as [T|T].
  { injection T; clear T; intros <- <- <-. cbn [touch_n] in TP. destruct (is p ($ "SPA_SERVER_PROTO")) eqn:P; [|discriminate TP]. apply bseq_eq in P. subst p. injection TP as <-.
    cbn [var_text]. rewrite E by discriminate. change (upd (Some (name_value protos (value_name protos [] (name_value protos v)))) d = name_value protos v).
    cbn [upd]. apply (proto_back _ v). apply proto_one_of. change (0 <=? name_value protos v = true) in G. lia. }
  destruct T as [T|T].
  { injection T; clear T; intros <- <- <-. cbn [var_text]. rewrite E by discriminate. change (upd (Some (nv (dec_i y))) d = y). cbn [upd].
    apply (NUM 65535 ($ "SPA_SERVER_PORT")); [exact TP|apply GP; reflexivity|lia]. }
  destruct T as [T|T].
  { injection T; clear T; intros <- <- <-. cbn [var_text]. rewrite E by discriminate. change (upd (Some (nv (dec_i y))) d = y). cbn [upd].
    apply (NUM 65535 ($ "SPA_SOURCE_PORT")); [exact TP|apply GP; reflexivity|lia]. }
  destruct T as [T|T].
  { injection T; clear T; intros <- <- <-. cbn [var_text]. rewrite E by discriminate. change (upd (Some (nv (dec_i y))) d = y). cbn [upd]. cbn [touch_n] in TP.
    destruct (is p ($ "FW_TIMEOUT")) eqn:P.
    - apply (NUM 65536 ($ "FW_TIMEOUT")); [now rewrite P|apply GP; reflexivity|lia].
    - apply (NUM 131072 ($ "-f")); [exact TP|apply GP; reflexivity|lia]. }
  destruct T as [T|T].
  { injection T; clear T; intros <- <- <-. cbn [touch_n] in TP. destruct (is p ($ "ENCRYPTION_MODE")) eqn:P; [|discriminate TP]. apply bseq_eq in P. subst p. injection TP as <-.
    cbn [var_text]. rewrite E by discriminate. change (upd (Some (enc_mode_strtoint (value_name mode_names [] (enc_mode_strtoint v)))) d = enc_mode_strtoint v).
    cbn [upd]. apply (mode_back _ v). apply mode_one_of. change (0 <=? enc_mode_strtoint v = true) in G. lia. }
  repeat (destruct T as [T|T]; [injection T; clear T; intros <- <- <-; cbn [var_text];
    first [ apply YES in TP; subst y; rewrite E by discriminate; reflexivity
          | cbn [touch_n] in TP; match type of TP with (if ?b then Some 1 else None) = _ => destruct b; [|discriminate TP]; injection TP as <-; reflexivity end
          | idtac ]|]); try contradiction.
  - cbn [touch_n] in TP. destruct (is p ($ "HMAC_DIGEST_TYPE")) eqn:P; [|discriminate TP]. apply bseq_eq in P. subst p. injection TP as <-.
    assert (OO : one_of digests v (hmac_digest_strtoint v)) by (apply digest_one_of; change (0 <=? hmac_digest_strtoint v = true) in G; lia).
    destruct (digest_back _ _ OO) as [RG DB]. destruct (EH eq_refl) as [EH'|EH']; [|lia]. rewrite EH'.
    change (upd (Some (hmac_digest_strtoint (value_name digest_names ($ "Unknown") (hmac_digest_strtoint v)))) d = hmac_digest_strtoint v). exact DB.
  - rewrite E by discriminate. change (upd (Some (nv (dec_i y))) d = y). cbn [upd]. apply (NUM 65535 ($ "NAT_PORT")); [exact TP|apply GP; reflexivity|lia].
Qed.
Lemma use_hmac_back d : num o q_use_hmac = run (touch_n q_use_hmac) c d -> run (touch_n q_use_hmac) (saved o m) d = run (touch_n q_use_hmac) c d.
Proof.
  intros E. assert (TG : touchedb (touch_n q_use_hmac) c = mem_var V_USE_HMAC m).
  { rewrite MK by discriminate. apply touched_given. intros a I. pose proof (table_n a (SAV a I)) as F. exact (Forall_inv F). }
  assert (VK : forall x, In x [V_HMAC_KEY; V_HMAC_KEY_BASE64] -> mem_var x m = true -> mem_var V_USE_HMAC m = true).
  { intros x I. rewrite !MK by (try discriminate; intros ->; cbn in I; intuition discriminate). unfold given_var. rewrite !existsb_exists. intros (a & J & M). exists a. split; [exact J|].
    destruct a as [k w]. cbn [fst] in *. destruct I as [<-|[<-|[]]]; destruct k; cbn in M |- *; try discriminate M; reflexivity. }
  destruct (run_cases (touch_n q_use_hmac) c) as [[A B]|(A & p & v & y & I & TP & R)]; rewrite TG in A.
  - rewrite B in *. unfold saved. rewrite run_flat.
    assert (K1 : mem_var V_HMAC_KEY m = false) by (apply not_true_is_false; intros Q; apply VK in Q; [congruence|cbn; tauto]).
    assert (K2 : mem_var V_HMAC_KEY_BASE64 m = false) by (apply not_true_is_false; intros Q; apply VK in Q; [congruence|cbn; tauto]).
    assert (Q : forall l, incl l var_array -> fold_left (fun y '(n, x) => if mem_var x m then match var_text x o with Some v => upd (touch_n q_use_hmac n v) y | None => y end else y) l d = d).
    { induction l as [|[n x] l IH]; intros IL; [reflexivity|]. cbn [fold_left]. pose proof (IL _ (or_introl eq_refl)) as IX. rewrite <- (IH ltac:(intros z Z; apply IL; now right)) at 2. f_equal.
      unfold var_array in IX. cbn [In] in IX. repeat (destruct IX as [IX|IX]; [injection IX; clear IX; intros <- <-;
        first [rewrite A; reflexivity|rewrite K1; reflexivity|rewrite K2; reflexivity|match goal with |- (if ?b then _ else _) = _ => destruct b; reflexivity end]|]). contradiction. }
    apply Q. intros z Z. exact Z.
  - rewrite R in *. assert (Y : y = 1).
    { cbn [touch_n] in TP. destruct (is p ($ "HMAC_KEY") || is p ($ "HMAC_KEY_BASE64")); [now injection TP as <-|]. destruct (is p ($ "USE_HMAC")); [|discriminate TP]. destruct (is_yes v); [|discriminate TP]. now injection TP as <-. }
    rewrite Y in E |- *. destruct (run_cases (touch_n q_use_hmac) (saved o m)) as [[A' _]|(_ & p' & v' & y' & I' & TP' & R')].
    + exfalso. unfold touchedb in A'. assert (X : existsb (fun e => some (touch_n q_use_hmac (fst e) (snd e))) (saved o m) = true); [|congruence]. apply existsb_exists.
      exists ($ "USE_HMAC", yesno (num o q_use_hmac)). split; [|rewrite E; reflexivity]. unfold saved. apply in_flat_map. exists ($ "USE_HMAC", V_USE_HMAC). split; [unfold var_array; cbn [In]; tauto|].
      rewrite A. now left.
    + rewrite R'. cbn [touch_n] in TP'. destruct (is p' ($ "HMAC_KEY") || is p' ($ "HMAC_KEY_BASE64")); [now injection TP' as <-|]. destruct (is p' ($ "USE_HMAC")); [|discriminate TP']. destruct (is_yes v'); [|discriminate TP']. now injection TP' as <-.
Qed.
End Fields.
