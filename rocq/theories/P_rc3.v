(** Proofs about the configuration of the client: from single entries to settings. *)
From Verif Require Import Bytes M_accfile M_base64 M_util M_message M_codec M_cipher M_ctx M_access M_replay M_cycle M_incoming M_conf M_codec M_client M_send
  S_base64 S_text S_conf S_accfile P_bytes P_base64 P_util P_util2 P_access P_replay P_conf P_accfile P_accfile2 P_accfile3 P_accfile4 P_message P_codec P_client P_client4 M_rc S_rc P_rc P_rc2.
From Coq Require Import Init.Byte List ZArith Bool Lia.
Import ListNotations.
Open Scope Z_scope.

Local Ltac ands := repeat match goal with |- _ /\ _ => split end.

(** ** The last entry counts *)
Definition run {X} (t : bytes -> bytes -> option X) (b : list (bytes * bytes)) (d : X) : X :=
  fold_left (fun x e => upd (t (fst e) (snd e)) x) b d.
Lemma run_snoc {X} (t : bytes -> bytes -> option X) b n v d : run t (b ++ [(n, v)]) d = upd (t n v) (run t b d).
Proof. unfold run. rewrite fold_left_app. reflexivity. Qed.
Lemma run_decided {X} (t : bytes -> bytes -> option X) ps (R : bytes -> bytes -> X -> Prop) d b :
  (forall n v, ~ In n ps -> t n v = None) ->
  (forall n v, In (n, v) b -> In n ps -> exists x, t n v = Some x /\ R n v x) -> decided b ps R d (run t b d).
Proof.
  intros NT. induction b as [|[n v] b IH] using rev_ind; intros RT.
  - split; [|reflexivity]. intros p v (b1 & b2 & E & _). destruct b1; discriminate E.
  - rewrite run_snoc. assert (IH' := IH (fun m u I => RT m u (in_or_app _ _ _ (or_introl I)))). clear IH.
    destruct (in_dec (list_eq_dec Byte.byte_eq_dec) n ps) as [I|I].
    + assert (IN : In (n, v) (b ++ [(n, v)])) by (apply in_or_app; right; now left). destruct (RT n v IN I) as (x & T & RX). rewrite T. cbn [upd]. split.
      * intros p u (b1 & b2 & E & IP & A). destruct b2 as [|e b2] using rev_ind.
        -- apply app_inj_tail in E as [_ E]. injection E as <- <-. exact RX.
        -- clear IHb2. rewrite app_comm_cons, app_assoc in E. apply app_inj_tail in E as [_ E]. exfalso.
           destruct e as [q w]. injection E as <- <-. apply (A n v); [apply in_or_app; right; now left|exact I].
      * intros A. exfalso. apply (A n v); [apply in_or_app; right; now left|exact I].
    + rewrite (NT n v I). cbn [upd]. destruct IH' as [H1 H2]. split.
      * intros p u (b1 & b2 & E & IP & A). apply H1. destruct b2 as [|e b2] using rev_ind.
        -- apply app_inj_tail in E as [_ E]. injection E as <- <-. contradiction.
        -- clear IHb2. rewrite app_comm_cons, app_assoc in E. apply app_inj_tail in E as [E _]. exists b1, b2. ands; auto.
           intros q w IQ. apply A with (u := w). apply in_or_app. now left.
      * intros A. apply H2. intros q w IQ. apply A with (u := w). apply in_or_app. now left.
Qed.
Lemma run_switch (t : bytes -> bytes -> option Z) (P : bytes -> bytes -> Prop) b d :
  (forall n v, (P n v /\ t n v = Some 1) \/ (~ P n v /\ t n v = None)) -> d = 0 ->
  switch (exists n v, In (n, v) b /\ P n v) (run t b d).
Proof.
  intros H ->. induction b as [|[n v] b IH] using rev_ind.
  - right. split; [|reflexivity]. intros (n & v & [] & _).
  - rewrite run_snoc. destruct (H n v) as [[PV T]|[NP T]]; rewrite T; cbn [upd].
    + left. split; [|reflexivity]. exists n, v. split; [apply in_or_app; right; now left|exact PV].
    + destruct IH as [[(m & u & I & PM) E]|[N E]]; [left|right]; (split; [|exact E]).
      * exists m, u. split; [apply in_or_app; now left|exact PM].
      * intros (m & u & I & PM). apply in_app_or in I as [I|[I|[]]]; [apply N; eauto|]. injection I as <- <-. contradiction.
Qed.
Lemma switch_iff P Q x : (P <-> Q) -> switch P x -> switch Q x.
Proof. unfold switch. tauto. Qed.
Lemma run_moved_t b o o' f : moved b o o' -> unseen_t f = false -> txt o' f = run (touch_t f) b (txt o f).
Proof. intros [H _] U. apply H, U. Qed.
Lemma run_moved_n b o o' f : moved b o o' -> unseen f = false -> num o' f = run (touch_n f) b (num o f).
Proof. intros [_ H] U. apply H, U. Qed.

(** ** Accepted entries *)
Definition ok_num (hi : Z) (v : bytes) : bool := strtol_ok (snd (strtol_wrapper v 0 hi)).
Definition ok_off (v : bytes) : bool := match time_offset v with Ok (Some (_, true)) => true | _ => false end.
Definition goodb (n v : bytes) : bool :=
  if is n ($ "DIGEST_TYPE") then 0 <=? hmac_digest_strtoint v
  else if is n ($ "HMAC_DIGEST_TYPE") then 0 <=? hmac_digest_strtoint v
  else if is n ($ "ENCRYPTION_MODE") then 0 <=? enc_mode_strtoint v
  else if is n ($ "SPA_SERVER_PROTO") then 0 <=? name_value protos v
  else if is n ($ "SPA_SERVER_PORT") then ok_num 65535 v
  else if is n ($ "SPA_SOURCE_PORT") then ok_num 65535 v
  else if is n ($ "NAT_PORT") then ok_num 65535 v
  else if is n ($ "FW_TIMEOUT") then ok_num 65536 v
  else if is n ($ "-f") then ok_num 131072 v
  else if is n ($ "--icmp-type") then ok_num 40 v
  else if is n ($ "--icmp-code") then ok_num 15 v
  else if is n ($ "VERBOSE") then is_yes v || ok_num 4 v
  else if is n ($ "TIME_OFFSET") then ok_off (if minus_value v then tl v else v)
  else if is n ($ "--time-offset-plus") then ok_off v
  else if is n ($ "--time-offset-minus") then ok_off v
  else if is n ($ "KEY_BASE64") then is_base64 v (zlen v)
  else if is n ($ "GPG_SIGNING_PW_BASE64") then is_base64 v (zlen v)
  else if is n ($ "HMAC_KEY_BASE64") then is_base64 v (zlen v)
  else if is n ($ "ALLOW_IP") then strcaseeq v ($ "source") || strcaseeq v ($ "resolve") || is_valid_ipv4_addr (ztake 15 v) (zlen (ztake 15 v))
  else true.
Definition good (e : bytes * bytes) : Prop := goodb (fst e) (snd e) = true.
Lemma e_number_good f hi v o o' : e_number f hi v o = Ok (true, o') -> ok_num hi v = true.
Proof. unfold e_number, ok_num. destruct (strtol_wrapper v 0 hi) as [x e]. cbn [snd]. destruct (strtol_ok e); [auto|discriminate]. Qed.
Lemma e_name_good f z o o' : e_name f z o = Ok (true, o') -> (0 <=? z) = true.
Proof. unfold e_name. destruct (z <? 0) eqn:E; [discriminate|]. intros _. lia. Qed.
Lemma e_offset_good f v o o' : e_offset f v o = Ok (true, o') -> ok_off v = true.
Proof. unfold e_offset, ok_off. destruct (time_offset v) as [[[z [|]]|]|]; try discriminate; auto. Qed.
Lemma ok_fst {A B} (a b : A) (x y : B) : Ok (a, x) = Ok (b, y) -> a = b.
Proof. intros E; inversion E; reflexivity. Qed.
Lemma taken_good e : taken e -> good e /\ In (fst e) variables.
Proof.
  destruct e as [n v]. intros (x & o & o' & L & E). cbn [fst snd] in *. unfold good. cbn [fst snd]. apply lookup_In in L. unfold var_array in L. cbn [In] in L.
  repeat (destruct L as [L|L]; [injection L; clear L; intros <- <-; split; [cbn [parse_rc_param] in E; cbv beta in E;
    first [ change (ok_num 65535 v = true); eapply e_number_good; exact E
          | change (ok_num 65536 v = true); eapply e_number_good; exact E
          | apply e_name_good in E; exact E
          | reflexivity
          | apply ok_fst in E; exact E
          | idtac ]|unfold variables; cbn [In]; tauto]|]); try contradiction.
  - change (strcaseeq v ($ "source") || strcaseeq v ($ "resolve") || is_valid_ipv4_addr (ztake 15 v) (zlen (ztake 15 v)) = true).
    destruct (strcaseeq v ($ "source")); [reflexivity|]. destruct (strcaseeq v ($ "resolve")); [reflexivity|]. cbv zeta in E. apply ok_fst in E. exact E.
  - change (ok_off (if minus_value v then tl v else v) = true). destruct v as [|c r]; [apply e_offset_good in E; exact E|].
    cbn [minus_value tl]. destruct (beq c "-"%byte); apply e_offset_good in E; exact E.
  - change (is_yes v || ok_num 4 v = true). destruct (is_yes v); [reflexivity|]. apply e_number_good in E. exact E.
Qed.
Lemma s_number_good f hi v o o' : s_number f 0 hi v o = Ok (Some o') -> ok_num hi v = true.
Proof. unfold s_number, ok_num. destruct (strtol_wrapper v 0 hi) as [x e]. cbn [snd]. destruct (strtol_ok e); [auto|discriminate]. Qed.
Lemma s_offset_good f v o o' : s_offset f v o = Ok (Some o') -> ok_off v = true.
Proof. unfold s_offset. destruct (e_offset f v o) as [[[|] o1]|] eqn:E; try discriminate. intros _. eapply e_offset_good; eauto. Qed.
Lemma arg_good a s s' : second_arg a s = Ok (Some s') -> Forall good (means a).
Proof.
  destruct a as [c v], s as [o m]. destruct c; cbn [second_arg means]; cbv beta zeta; intro E; try discriminate E;
    repeat apply Forall_cons; try apply Forall_nil; unfold good; cbn [fst snd]; try reflexivity;
    try (apply sbind_ok in E as (o1 & S & _); first [exact (s_number_good _ _ _ _ _ S)|exact (s_offset_good _ _ _ _ S)]);
    try (match type of E with (if ?b then _ else _) = _ => destruct b eqn:B end; try discriminate E;
         first [exact B | match goal with |- ?g = true => let g' := eval hnf in g in idtac end; change (0 <=? hmac_digest_strtoint v = true); lia
               | change (0 <=? enc_mode_strtoint v = true); lia | change (0 <=? name_value protos v = true); lia]).
Qed.
Lemma args_good args : forall s s', all_args second_arg args s = Ok (Some s') -> Forall good (command args).
Proof.
  induction args as [|a args IH]; intros s s' E; cbn [all_args] in E; [constructor|].
  apply sbind_ok in E as (s1 & S & E). change (command (a :: args)) with (means a ++ command args). apply Forall_app. split; [eapply arg_good; eauto|eauto].
Qed.
