(** Proofs about the reading of access.conf: files without include directives. *)
From Verif Require Import Bytes M_base64 M_util M_message M_codec M_access M_replay M_cycle M_incoming M_conf M_accfile
  S_text S_base64 S_conf S_accfile P_bytes P_base64 P_util P_util2 P_access P_replay P_conf P_accfile.
From Coq Require Import Init.Byte List ZArith Bool Lia.
Import ListNotations.
Open Scope Z_scope.

Local Ltac ands := repeat match goal with |- _ /\ _ => split end.

(** ** Entries of a stanza *)
Fixpoint block_run (y : system) (b : list (bytes * bytes)) (w : work) : res work :=
  match b with
  | [] => Done w
  | (n, v) :: r => rbind (set_param params y n v w) (block_run y r)
  end.

Lemma block_run_snoc y b n v : forall w, block_run y (b ++ [(n, v)]) w = rbind (block_run y b w) (set_param params y n v).
Proof.
  induction b as [|[m u] b IH]; intros w.
  - cbn. destruct (set_param params y n v w); reflexivity.
  - cbn [app block_run]. destruct (set_param params y m u w); cbn [rbind]; auto.
Qed.

(** The last entry that touches a field decides it. *)
Lemma block_last {X} (g : work -> X) (t : bytes -> bytes -> option X) y :
  (forall n v w w', set_param params y n v w = Done w' -> g w' = upd (t n v) (g w)) ->
  forall b w w', block_run y b w = Done w' ->
   (exists b1 n v b2 x, b = b1 ++ (n, v) :: b2 /\ t n v = Some x /\ (forall m u, In (m, u) b2 -> t m u = None) /\ g w' = x) \/
   ((forall m u, In (m, u) b -> t m u = None) /\ g w' = g w).
Proof.
  intros H b. induction b as [|[n v] b IH]; intros w w' E; cbn in E.
  - inversion E; subst. right. split; [intros ? ? []|reflexivity].
  - destruct (set_param params y n v w) as [w1| | | |] eqn:S; cbn in E; try discriminate.
    destruct (IH _ _ E) as [(b1 & m & u & b2 & x & -> & T & N & G)|[N G]].
    + left. exists ((n, v) :: b1), m, u, b2, x. auto.
    + destruct (t n v) as [x|] eqn:T.
      * left. exists [], n, v, b, x. ands; auto. rewrite G, (H _ _ _ _ S), T. reflexivity.
      * right. split; [intros m u [I|I]; [inversion I; subst; auto|auto]|]. rewrite G, (H _ _ _ _ S), T. reflexivity.
Qed.

(** If only the parameters [ps] touch a field, it is decided by them. *)
Lemma block_decided {X} (g : work -> X) (t : bytes -> bytes -> option X) y (ps : list bytes) (R : bytes -> bytes -> X -> Prop) d
  b w w' :
  (forall n v w w', set_param params y n v w = Done w' -> g w' = upd (t n v) (g w)) ->
  (forall n v, ~ In n ps -> t n v = None) ->
  (forall n v w w', In n ps -> set_param params y n v w = Done w' -> exists x, t n v = Some x /\ R n v x) ->
  g w = d -> block_run y b w = Done w' -> decided b ps R d (g w').
Proof.
  intros H NT RT D E. split.
  - intros p v (b1 & b2 & -> & I & N).
    assert (Q : exists wa wb, set_param params y p v wa = Done wb).
    { clear - E. revert w E. induction b1 as [|[n u] b1 IH]; intros w E; cbn in E.
      - destruct (set_param params y p v w) eqn:S; try discriminate. eauto.
      - destruct (set_param params y n u w); try discriminate. cbn in E. eauto. }
    destruct Q as (wa & wb & S). destruct (RT _ _ _ _ I S) as (x & T & RX).
    destruct (block_last g t y H _ _ _ E) as [(c1 & n & u & c2 & z & EQ & T2 & N2 & G)|[N2 G]].
    + rewrite G.
      assert (LL : forall (c1 : list (bytes*bytes)) (b1 : list (bytes*bytes)), b1 ++ (p, v) :: b2 = c1 ++ (n, u) :: c2 -> (n, u) = (p, v)).
      { clear - N N2 T T2 NT I. induction c1 as [|e c1 IH]; intros [|e' b1] EQ; cbn in EQ.
        - inversion EQ. reflexivity.
        - inversion EQ; subst. exfalso. assert (t p v = None) by (apply N2; apply in_or_app; right; now left). congruence.
        - inversion EQ; subst. exfalso.
          assert (In (n, u) (c1 ++ (n, u) :: c2)) by (apply in_or_app; right; now left).
          pose proof (N _ _ H) as NI. rewrite (NT n u NI) in T2. discriminate.
        - inversion EQ; subst. eauto. }
      specialize (LL _ _ EQ). inversion LL; subst. rewrite T in T2. inversion T2; subst. exact RX.
    + exfalso. assert (t p v = None) by (apply N2; apply in_or_app; right; now left). congruence.
  - intros A. destruct (block_last g t y H _ _ _ E) as [(c1 & n & u & c2 & z & -> & T2 & N2 & G)|[N2 G]].
    + exfalso. assert (In (n, u) (c1 ++ (n, u) :: c2)) by (apply in_or_app; right; now left).
      rewrite (NT n u (A _ _ H0)) in T2. discriminate.
    + congruence.
Qed.

Lemma eff_s y f n v w w' : set_param params y n v w = Done w' -> strs (w_acc w') f = upd (touch_s f n v) (strs (w_acc w) f).
Proof. intros E. apply set_param_effect in E. destruct E as [E _]. apply E. Qed.
Lemma eff_i y f n v w w' : set_param params y n v w = Done w' -> ints (w_acc w') f = upd (touch_i y f n v) (ints (w_acc w) f).
Proof. intros E. apply set_param_effect in E. destruct E as (_ & E & _). apply E. Qed.
Lemma eff_l y b : forall w w', block_run y b w = Done w' -> lists (w_acc w') = lists (w_acc w).
Proof.
  induction b as [|[n v] b IH]; intros w w' E; cbn in E; [inversion E; auto|].
  destruct (set_param params y n v w) as [w1| | | |] eqn:S; try discriminate. cbn in E.
  rewrite (IH _ _ E). apply set_param_effect in S. apply S.
Qed.

(** ** Values *)
Lemma yes_flag v : flag v (acc_bool v).
Proof.
  unfold flag, acc_bool, yes. destruct v as [|c v]; cbn [hd].
  - right. split; [|reflexivity]. cbn. intuition discriminate.
  - destruct c; (left; split; [cbn; tauto|reflexivity]) || (right; split; [cbn; intuition discriminate|reflexivity]).
Qed.
Lemma tolower_lower c : tolower c = lower c.
Proof. destruct c; reflexivity. Qed.
Lemma strcaseeq_lower a b : strcaseeq a b = true -> map lower a = map lower b.
Proof.
  unfold strcaseeq. intros E. apply bseq_eq in E.
  rewrite (map_ext _ _ tolower_lower a), (map_ext _ _ tolower_lower b) in E. exact E.
Qed.
Lemma digest_one_of v : 0 <= hmac_digest_strtoint v -> one_of digests v (hmac_digest_strtoint v).
Proof.
  unfold hmac_digest_strtoint, one_of, digests.
  destruct (strcaseeq v ($ "md5")) eqn:E1; [intros _; exists ($ "md5"); split; [cbn; tauto|apply strcaseeq_lower; auto]|].
  destruct (strcaseeq v ($ "sha1")) eqn:E2; [intros _; exists ($ "sha1"); split; [cbn; tauto|apply strcaseeq_lower; auto]|].
  destruct (strcaseeq v ($ "sha256")) eqn:E3; [intros _; exists ($ "sha256"); split; [cbn; tauto|apply strcaseeq_lower; auto]|].
  destruct (strcaseeq v ($ "sha384")) eqn:E4; [intros _; exists ($ "sha384"); split; [cbn; tauto|apply strcaseeq_lower; auto]|].
  destruct (strcaseeq v ($ "sha512")) eqn:E5; [intros _; exists ($ "sha512"); split; [cbn; tauto|apply strcaseeq_lower; auto]|].
  destruct (strcaseeq v ($ "sha3_256")) eqn:E6; [intros _; exists ($ "sha3_256"); split; [cbn; tauto|apply strcaseeq_lower; auto]|].
  destruct (strcaseeq v ($ "sha3_512")) eqn:E7; [intros _; exists ($ "sha3_512"); split; [cbn; tauto|apply strcaseeq_lower; auto]|].
  intros H. exfalso. lia.
Qed.
Lemma mode_one_of v : 0 <= enc_mode_strtoint v -> one_of modes v (enc_mode_strtoint v).
Proof.
  unfold enc_mode_strtoint, one_of, modes.
  destruct (strcaseeq v ($ "CBC")) eqn:E1; [intros _; exists ($ "CBC"); split; [cbn; tauto|apply strcaseeq_lower; auto]|].
  destruct (strcaseeq v ($ "ECB")) eqn:E2; [intros _; exists ($ "ECB"); split; [cbn; tauto|apply strcaseeq_lower; auto]|].
  destruct (strcaseeq v ($ "CFB")) eqn:E3; [intros _; exists ($ "CFB"); split; [cbn; tauto|apply strcaseeq_lower; auto]|].
  destruct (strcaseeq v ($ "OFB")) eqn:E4; [intros _; exists ($ "OFB"); split; [cbn; tauto|apply strcaseeq_lower; auto]|].
  destruct (strcaseeq v ($ "CTR")) eqn:E5; [intros _; exists ($ "CTR"); split; [cbn; tauto|apply strcaseeq_lower; auto]|].
  destruct (strcaseeq v ($ "Asymmetric")) eqn:E6; [intros _; exists ($ "Asymmetric"); split; [cbn; tauto|apply strcaseeq_lower; auto]|].
  destruct (strcaseeq v ($ "legacy")) eqn:E7; [intros _; exists ($ "legacy"); split; [cbn; tauto|apply strcaseeq_lower; auto]|].
  intros H. exfalso. lia.
Qed.
Lemma one_of_pos l v x : (forall n z, In (n, z) l -> 0 < z) -> one_of l v x -> 0 < x.
Proof. intros H (n & I & _). eauto. Qed.

(** ** Stanzas *)
(** The raw settings of a stanza with the entries [b], read with some values of the static data *)
Definition raw (y : system) (src : bytes) (b : list (bytes * bytes)) (w' : work) : Prop :=
  exists pw u sd, block_run y b (mkWork (set_s s_source (Some src) new_acc) pw u sd) = Done w'.

Lemma raw_source y src b w : raw y src b w -> strs (w_acc w) s_source = Some src.
Proof.
  intros (pw & u & sd & E).
  destruct (block_last (fun w => strs (w_acc w) s_source) (fun n v => touch_s s_source n v) y (fun n v w w' => eff_s y s_source n v w w') _ _ _ E)
    as [(c1 & n & v & c2 & z & _ & T2 & _)|[_ G]]; [discriminate|exact G].
Qed.

Lemma raw_string y src b w p f : raw y src b w -> In (p, f) string_table ->
  decided b [p] (fun _ v x => x = Some v) None (strs (w_acc w) f).
Proof.
  intros (pw & u & sd & E) I.
  refine (block_decided (fun w => strs (w_acc w) f) (fun n v => touch_s f n v) y [p] (fun _ v x => x = Some v) None b _ w
          (fun n v w w' => eff_s y f n v w w') _ _ _ E).
  - unfold string_table in I. cbn [In] in I.
    intros n v N. cbn in N.
    assert (B : is n p = false). { destruct (is n p) eqn:X; [apply bseq_eq in X; subst; tauto|reflexivity]. }
    repeat (destruct I as [I|I]; [inversion I; subst p f; cbn [touch_s]; rewrite B; reflexivity|]). contradiction.
  - unfold string_table in I. cbn [In] in I.
    intros n v w0 w1 [<-|[]] _.
    repeat (destruct I as [I|I]; [inversion I; subst p f; exists (Some v); split; reflexivity|]). contradiction.
  - unfold string_table in I. cbn [In] in I.
    repeat (destruct I as [I|I]; [inversion I; subst p f; reflexivity|]). contradiction.
Qed.

Lemma raw_flag y src b w ps f : raw y src b w -> In (ps, f) flag_table ->
  decided b ps (fun _ v x => flag v x) 0 (ints (w_acc w) f).
Proof.
  intros (pw & u & sd & E) I.
  refine (block_decided (fun w => ints (w_acc w) f) (fun n v => touch_i y f n v) y ps (fun _ v x => flag v x) 0 b _ w
          (fun n v w w' => eff_i y f n v w w') _ _ _ E).
  - unfold flag_table in I. cbn [In] in I. intros n v N.
    assert (B : forall p, In p ps -> is n p = false). { intros p J. destruct (is n p) eqn:X; [apply bseq_eq in X; subst; tauto|reflexivity]. }
    repeat (destruct I as [I|I]; [inversion I; subst ps f; cbn [touch_i]; rewrite ?B by (cbn [In]; tauto); reflexivity|]). contradiction.
  - unfold flag_table in I. cbn [In] in I. intros n v w0 w1 J _.
    repeat (destruct I as [I|I]; [inversion I; subst ps f; cbn [In] in J; repeat (destruct J as [<-|J]; [exists (acc_bool v); split; [reflexivity|apply yes_flag]|]); contradiction|]).
    contradiction.
  - reflexivity.
Qed.

Lemma number_done f lo hi y v w w' : 0 <= lo -> lo <= hi -> a_number f lo hi y v w = Done w' ->
  lo <= num v <= hi /\ (forall n, integer_text v n -> -2147483648 <= n < 2147483648 -> num v = n).
Proof.
  intros L H. unfold a_number. destruct (strtol_wrapper v lo hi) as [x e] eqn:W. destruct (strtol_ok e) eqn:O; [|discriminate].
  intros _. assert (e = STRTOL_OK) by (destruct e; try discriminate; reflexivity). subst e.
  rewrite (num_wrapper _ _ _ _ _ W). destruct (strtol_wrapper_range _ _ _ _ W) as (A & B & _).
  split; [lia|]. intros n T R. destruct (strtol_wrapper_reads _ lo hi _ T R _ _ W) as [V _]. exact V.
Qed.

Lemma raw_number y src b w p f (hi : Z) lo : raw y src b w ->
  (forall n v, touch_i y f n v = if is n p then Some (num v) else None) ->
  find_param params p = Some (a_number f lo hi) -> 0 <= lo <= hi ->
  decided b [p] (fun _ v x => lo <= x <= hi /\ forall n, integer_text v n -> -2147483648 <= n < 2147483648 -> x = n) 0 (ints (w_acc w) f).
Proof.
  intros (pw & u & sd & E) T F L.
  refine (block_decided (fun w => ints (w_acc w) f) (fun n v => touch_i y f n v) y [p] _ 0 b _ w
          (fun n v w w' => eff_i y f n v w w') _ _ _ E).
  - intros n v N. rewrite T. destruct (is n p) eqn:X; [apply bseq_eq in X; subst; cbn in N; tauto|reflexivity].
  - intros n v w0 w1 [<-|[]] D. unfold set_param in D. rewrite F in D. exists (num v).
    split; [rewrite T; unfold is; now rewrite bseq_refl|]. apply (number_done f lo hi y v w0 w1); auto; lia.
  - reflexivity.
Qed.

Lemma raw_mode y src b w : raw y src b w ->
  decided b [$ "ENCRYPTION_MODE"] (fun _ v x => one_of modes v x) 0 (ints (w_acc w) i_mode).
Proof.
  intros (pw & u & sd & E).
  refine (block_decided (fun w => ints (w_acc w) i_mode) (fun n v => touch_i y i_mode n v) y _ _ 0 b _ w
          (fun n v w w' => eff_i y i_mode n v w w') _ _ _ E).
  - intros n v N. cbn [touch_i]. destruct (is n _) eqn:X; [apply bseq_eq in X; subst; cbn in N; tauto|reflexivity].
  - intros n v w0 w1 [<-|[]] D. exists (enc_mode_strtoint v). split; [reflexivity|].
    change (a_mode y v w0 = Done w1) in D. unfold a_mode in D. cbv zeta in D.
    destruct (enc_mode_strtoint v <? 0) eqn:Q; [discriminate|]. apply mode_one_of. lia.
  - reflexivity.
Qed.
Lemma raw_hmac_type y src b w : raw y src b w ->
  decided b [$ "HMAC_DIGEST_TYPE"] (fun _ v x => one_of digests v x) 0 (ints (w_acc w) i_hmac_type).
Proof.
  intros (pw & u & sd & E).
  refine (block_decided (fun w => ints (w_acc w) i_hmac_type) (fun n v => touch_i y i_hmac_type n v) y _ _ 0 b _ w
          (fun n v w w' => eff_i y i_hmac_type n v w w') _ _ _ E).
  - intros n v N. cbn [touch_i]. destruct (is n _) eqn:X; [apply bseq_eq in X; subst; cbn in N; tauto|reflexivity].
  - intros n v w0 w1 [<-|[]] D. exists (hmac_digest_strtoint v). split; [reflexivity|].
    change (a_hmac_type y v w0 = Done w1) in D. unfold a_hmac_type in D. cbv zeta in D.
    destruct (hmac_digest_strtoint v <? 0) eqn:Q; [discriminate|]. apply digest_one_of. lia.
  - reflexivity.
Qed.

Lemma rfc_decode k : b64_decode (rfc4648 k) = Some k.
Proof. rewrite <- b64_encode_rfc. apply b64_round_trip. Qed.

Lemma raw_key y src b w : raw y src b w ->
  decided b [$ "KEY"; $ "KEY_BASE64"] (key_text ($ "KEY_BASE64")) None (strs (w_acc w) s_key).
Proof.
  intros (pw & u & sd & E).
  refine (block_decided (fun w => strs (w_acc w) s_key) (fun n v => touch_s s_key n v) y _ _ None b _ w
          (fun n v w w' => eff_s y s_key n v w w') _ _ _ E).
  - intros n v N. cbn [touch_s].
    destruct (is n ($ "KEY")) eqn:X; [apply bseq_eq in X; subst; exfalso; apply N; now left|].
    destruct (is n ($ "KEY_BASE64")) eqn:X2; [apply bseq_eq in X2; subst; exfalso; apply N; right; now left|reflexivity].
  - intros n v w0 w1 [<-|[<-|[]]] D.
    + exists (Some v). split; [reflexivity|]. split; [reflexivity|discriminate].
    + exists (b64_decode v). split; [reflexivity|]. split; [congruence|]. intros _ k ->. apply rfc_decode.
  - reflexivity.
Qed.
Lemma raw_hmac_key y src b w : raw y src b w ->
  decided b [$ "HMAC_KEY"; $ "HMAC_KEY_BASE64"] (key_text ($ "HMAC_KEY_BASE64")) None (strs (w_acc w) s_hmac_key).
Proof.
  intros (pw & u & sd & E).
  refine (block_decided (fun w => strs (w_acc w) s_hmac_key) (fun n v => touch_s s_hmac_key n v) y _ _ None b _ w
          (fun n v w w' => eff_s y s_hmac_key n v w w') _ _ _ E).
  - intros n v N. cbn [touch_s].
    destruct (is n ($ "HMAC_KEY")) eqn:X; [apply bseq_eq in X; subst; exfalso; apply N; now left|].
    destruct (is n ($ "HMAC_KEY_BASE64")) eqn:X2; [apply bseq_eq in X2; subst; exfalso; apply N; right; now left|reflexivity].
  - intros n v w0 w1 [<-|[<-|[]]] D.
    + exists (Some v). split; [reflexivity|]. split; [reflexivity|discriminate].
    + exists (b64_decode v). split; [reflexivity|]. split; [congruence|]. intros _ k ->. apply rfc_decode.
  - reflexivity.
Qed.
