(** C39, C54, C55: the configuration file of the server. *)
From Verif Require Import Bytes M_base64 M_util M_message M_codec M_access M_replay M_conf S_text S_conf
  P_bytes P_util P_util2 P_access P_replay P_conf.
From Coq Require Import Init.Byte List ZArith Bool Lia.
Import ListNotations.
Open Scope Z_scope.

Local Ltac ands := repeat match goal with |- _ /\ _ => split end.
Local Ltac line := unfold line_ok; ands; [cbn; intuition discriminate|cbn; intuition discriminate|vm_compute; discriminate].

(** C39.  Whatever stands in the lines before (and whatever they left in the reader's
    buffers), a value that is a reference with a rest becomes the value of the variable referred
    to, followed by the rest, up to the length of a line; no other variable changes. *)
Theorem C39_reference_partial : forall own pre l cf cf0 n v m r x, Forall line_ok pre -> line_ok l ->
  parse_config_file own (file pre) cf = Ok cf0 -> gives l n v -> refers v m r ->
  In n config_map -> In m config_map -> cf0 m = Some x ->
  exists cf', parse_config_file own (file (pre ++ [l])) cf = Ok cf' /\
    cf' n = Some (ztake 1023 (x ++ r)) /\ forall k, k <> n -> cf' k = cf0 k.
Proof. exact parse_reference. Qed.
Print Assumptions C39_reference_partial.

(** C39.  A reference to a variable that does not exist or has no value changes nothing. *)
Theorem C39_no_value_partial : forall pre l cf cf0 n v m r, Forall line_ok pre -> line_ok l ->
  parse_config_file false (file pre) cf = Ok cf0 -> gives l n v -> refers v m r ->
  ~ In m config_map \/ cf0 m = None ->
  exists cf', parse_config_file false (file (pre ++ [l])) cf = Ok cf' /\ forall k, cf' k = cf0 k.
Proof. exact parse_reference_unset. Qed.
Print Assumptions C39_no_value_partial.

Definition l_run := $ "FWKNOP_RUN_DIR /run/fwknop;".
Definition l_dig := $ "DIGEST_FILE  $FWKNOP_RUN_DIR/digest.cache ;".
Definition l_pid := $ "FWKNOP_PID_FILE $FWKNOP_RUN_DIR;".
Definition nothing : config := fun _ => None.

Lemma l_run_ok : line_ok l_run. Proof. line. Qed.
Lemma l_dig_ok : line_ok l_dig. Proof. line. Qed.
Lemma l_pid_ok : line_ok l_pid. Proof. line. Qed.

Lemma l_run_gives : gives l_run ($ "FWKNOP_RUN_DIR") ($ "/run/fwknop").
Proof.
  destruct (scan_written l_run ($ "FWKNOP_RUN_DIR") ($ "/run/fwknop")) as (v & t & E & W).
  - rewrite <- empty_line_comment; [vm_compute; discriminate|apply l_run_ok].
  - vm_compute; reflexivity.
  - assert (R : rtrim ($ "/run/fwknop") = v).
    { rewrite E. apply rtrim_spec; destruct W as (_ & ? & ? & ? & W); [tauto|].
      eapply Forall_impl; [|apply W]. intros c [? _]; auto. }
    vm_compute in R. subst v. exists t. exact W.
Qed.
Lemma l_dig_gives : gives l_dig ($ "DIGEST_FILE") ($ "$FWKNOP_RUN_DIR/digest.cache").
Proof.
  destruct (scan_written l_dig ($ "DIGEST_FILE") ($ "$FWKNOP_RUN_DIR/digest.cache ")) as (v & t & E & W).
  - rewrite <- empty_line_comment; [vm_compute; discriminate|apply l_dig_ok].
  - vm_compute; reflexivity.
  - assert (R : rtrim ($ "$FWKNOP_RUN_DIR/digest.cache ") = v).
    { rewrite E. apply rtrim_spec; destruct W as (_ & ? & ? & ? & W); [tauto|].
      eapply Forall_impl; [|apply W]. intros c [? _]; auto. }
    vm_compute in R. subst v. exists t. exact W.
Qed.
Lemma l_pid_gives : gives l_pid ($ "FWKNOP_PID_FILE") ($ "$FWKNOP_RUN_DIR").
Proof.
  destruct (scan_written l_pid ($ "FWKNOP_PID_FILE") ($ "$FWKNOP_RUN_DIR")) as (v & t & E & W).
  - rewrite <- empty_line_comment; [vm_compute; discriminate|apply l_pid_ok].
  - vm_compute; reflexivity.
  - assert (R : rtrim ($ "$FWKNOP_RUN_DIR") = v).
    { rewrite E. apply rtrim_spec; destruct W as (_ & ? & ? & ? & W); [tauto|].
      eapply Forall_impl; [|apply W]. intros c [? _]; auto. }
    vm_compute in R. subst v. exists t. exact W.
Qed.

Lemma dig_refers : refers ($ "$FWKNOP_RUN_DIR/digest.cache") ($ "FWKNOP_RUN_DIR") ($ "/digest.cache").
Proof.
  unfold refers. ands; try discriminate; try reflexivity.
  - apply Forall_forall. intros c I. apply name_char_capital. revert c I. apply forallb_forall. vm_compute. reflexivity.
  - rewrite <- name_char_capital. vm_compute. discriminate.
  - apply Forall_forall. intros c I. apply nonspace_blank. revert c I.
    apply (forallb_forall (fun c => negb (isspace c))). vm_compute. reflexivity.
Qed.

Example C39_ex : exists cf', parse_config_file false (file ([l_run] ++ [l_dig])) nothing = Ok cf' /\
    cf' ($ "DIGEST_FILE") = Some ($ "/run/fwknop/digest.cache") /\ cf' ($ "FWKNOP_RUN_DIR") = Some ($ "/run/fwknop").
Proof.
  assert (P : exists cf0, parse_config_file false (file [l_run]) nothing = Ok cf0 /\ cf0 ($ "FWKNOP_RUN_DIR") = Some ($ "/run/fwknop")).
  { eexists; split; vm_compute; reflexivity. }
  destruct P as (cf0 & P & X).
  destruct (C39_reference_partial false [l_run] l_dig nothing cf0 _ _ _ _ _ (Forall_cons _ l_run_ok (Forall_nil _)) l_dig_ok P
    l_dig_gives dig_refers ltac:(vm_compute; tauto) ltac:(vm_compute; tauto) X) as (cf' & E & V & U).
  exists cf'. split; [exact E|]. split; [rewrite V; vm_compute; reflexivity|]. rewrite U; [exact X|discriminate].
Qed.

(** C39 as stated does not hold: a reference with no rest is followed by the rest of an earlier
    reference. *)
Theorem C39_rest_refuted : exists lines cf' x, Forall line_ok lines /\
  gives (last lines []) ($ "FWKNOP_PID_FILE") ($ "$FWKNOP_RUN_DIR") /\
  parse_config_file false (file lines) nothing = Ok cf' /\ cf' ($ "FWKNOP_RUN_DIR") = Some x /\
  cf' ($ "FWKNOP_PID_FILE") <> Some x.
Proof.
  exists [l_run; l_dig; l_pid]. eexists. exists ($ "/run/fwknop"). ands.
  - repeat constructor; try apply l_run_ok; try apply l_dig_ok; try apply l_pid_ok.
  - exact l_pid_gives.
  - vm_compute; reflexivity.
  - vm_compute; reflexivity.
  - vm_compute. discriminate.
Qed.
Print Assumptions C39_rest_refuted.

(** C54.  After reading a file of plain lines every variable has the value of the last line about
    it, or its old value if there is none; nothing else changes.  Lines that say nothing, and
    lines about unknown variables, do not disturb the others. *)
Theorem C54_settings_partial : forall own lines cf, Forall line_ok lines -> Forall plain lines ->
  (own = true -> forall l v, In l lines -> ~ gives l ($ "CONFIG_FILE") v) ->
  exists cf', parse_config_file own (file lines) cf = Ok cf' /\
    (forall n, In n config_map -> settles lines n (cf n) (cf' n)) /\
    (forall n, ~ In n config_map -> cf' n = cf n).
Proof. exact parse_plain. Qed.
Print Assumptions C54_settings_partial.

Definition l_old := $ "FWKNOP_RUN_DIR /tmp".
Definition l_bad := $ "FWKNOP_RUN_DIR".
Definition l_com := $ "#FWKNOP_RUN_DIR /x".
Example C54_ex : Forall line_ok [l_old; l_run; l_com; l_bad] /\ Forall plain [l_old; l_run; l_com; l_bad] /\
  settles [l_old; l_run; l_com; l_bad] ($ "FWKNOP_RUN_DIR") None (Some ($ "/run/fwknop")).
Proof.
  ands.
  - repeat apply Forall_cons; try apply Forall_nil; try apply l_run_ok; line.
  - assert (G : forall l n val, scan_line l = Some (n, val) -> hd x00 val <> "$"%byte -> 2 <= zlen val -> rtrim val = val -> plain l).
    { intros l n val E D L R n' v t W. rewrite (written_scan _ _ _ _ W) in E. inversion E; subst.
      assert (Q : rtrim (v ++ t) = v).
      { apply rtrim_spec; destruct W as (_ & ? & ? & ? & W); [tauto|]. eapply Forall_impl; [|apply W]. intros c [? _]; auto. }
      rewrite R in Q. assert (t = []) by (apply (app_inv_head v); now rewrite app_nil_r). subst t. rewrite app_nil_r in *. auto. }
    constructor; [|constructor; [|constructor; [|constructor; [|constructor]]]].
    + apply (G _ ($ "FWKNOP_RUN_DIR") ($ "/tmp")); vm_compute; try reflexivity; discriminate.
    + apply (G _ ($ "FWKNOP_RUN_DIR") ($ "/run/fwknop")); vm_compute; try reflexivity; discriminate.
    + intros n v t [NC _]. exfalso. apply NC. right. vm_compute. auto.
    + intros n v t W. apply written_scan in W. vm_compute in W. discriminate.
  - left. exists [l_old], l_run, [l_com; l_bad], ($ "/run/fwknop"). ands; try reflexivity.
    + exact l_run_gives.
    + intros l' v' [<-|[<-|[]]] (t & W).
      * destruct W as [NC _]. apply NC. right. vm_compute. auto.
      * apply written_scan in W. vm_compute in W. discriminate.
Qed.

(** C54 as stated does not hold: blanks behind a value of one character stay in it. *)
Definition l_one := $ "VERBOSE 1  ;".
Theorem C54_blanks_refuted : exists cf', line_ok l_one /\ gives l_one ($ "VERBOSE") ($ "1") /\
  parse_config_file false (file [l_one]) nothing = Ok cf' /\ cf' ($ "VERBOSE") = Some ($ "1  ").
Proof.
  eexists. ands.
  - line.
  - destruct (scan_written l_one ($ "VERBOSE") ($ "1  ")) as (v & t & E & W).
    + rewrite <- empty_line_comment; [vm_compute; discriminate|cbn; intuition discriminate].
    + vm_compute; reflexivity.
    + assert (R : rtrim ($ "1  ") = v).
      { rewrite E. apply rtrim_spec; destruct W as (_ & ? & ? & ? & W); [tauto|].
        eapply Forall_impl; [|apply W]. intros c [? _]; auto. }
      vm_compute in R. subst v. exists t. exact W.
  - vm_compute; reflexivity.
  - vm_compute; reflexivity.
Qed.
Print Assumptions C54_blanks_refuted.

(** C54 as stated does not hold: when a file gives a value to CONFIG_FILE, a later message about
    another line uses the name of the file after it was freed. *)
Theorem C54_freed_refuted : exists lines cf, Forall line_ok lines /\ parse_config_file true (file lines) cf = Fault.
Proof.
  exists [$ "CONFIG_FILE /etc/fwknop/fwknopd.conf"; $ "UNKNOWN 1"], nothing. split.
  - repeat apply Forall_cons; try apply Forall_nil; line.
  - vm_compute; reflexivity.
Qed.
Print Assumptions C54_freed_refuted.

(** C55.  The numbers the daemon works with: *)
Definition limits : list (bytes * Z * Z) :=
  [ ($ "PCAP_LOOP_SLEEP", 1, 8388608); ($ "PCAP_DISPATCH_COUNT", 1, 8388608); ($ "MAX_SPA_PACKET_AGE", 1, 100000);
    ($ "MAX_SNIFF_BYTES", 1, 32768); ($ "RULES_CHECK_THRESHOLD", 0, 131071); ($ "TCPSERV_PORT", 1, 131071);
    ($ "UDPSERV_PORT", 1, 131071); ($ "UDPSERV_SELECT_TIMEOUT", 1, 8388608) ].

(** each of them lies within its limits and is the number written, if this fits 32 bits; *)
Theorem C55_ranges_partial : forall cf l, validate_int_var_ranges cf = Ok (Some l) ->
  map fst l = map (fun e => fst (fst e)) limits /\
  forall n lo hi, In (n, lo, hi) limits -> exists x v, In (n, x) l /\ cf n = Some v /\ lo <= x <= hi /\
    forall y, integer_text v y -> -2147483648 <= y < 2147483648 -> x = y.
Proof.
  intros cf l. unfold validate_int_var_ranges. change int_vars with limits.
  assert (POS : forall n lo hi, In (n, lo, hi) limits -> 0 <= hi).
  { intros n lo hi I. cbn in I. repeat (destruct I as [I|I]; [inversion I; lia|]). contradiction. }
  revert POS l. generalize limits. induction l as [|[[n lo] hi] r IH]; intros POS out E.
  - cbn in E. inversion E; subst. split; [reflexivity|]. intros ? ? ? [].
  - cbn [check_ranges] in E. destruct (cf n) as [v|] eqn:V; [|discriminate].
    unfold range_check in E. destruct (strtol_wrapper v lo hi) as [x e] eqn:W.
    destruct (strtol_ok e) eqn:O; [|discriminate].
    destruct (check_ranges r cf) as [[t|]|] eqn:C; try discriminate. inversion E; subst out.
    destruct (IH (fun n lo hi I => POS n lo hi (or_intror I)) t eq_refl) as [M K].
    split; [cbn; now rewrite M|].
    assert (EO : e = STRTOL_OK) by (destruct e; try discriminate; reflexivity). subst e.
    intros n' lo' hi' [I|I].
    + inversion I; subst. exists x, v. split; [now left|]. split; [auto|].
      destruct (strtol_wrapper_range _ _ _ _ W) as (A & B & _).
      split; [split; [exact A|apply B; eapply POS; now left]|].
      intros y Y R. pose proof (strtol_wrapper_reads _ lo' hi' _ Y R _ _ W) as H. tauto.
    + destruct (K _ _ _ I) as (x' & v' & I' & H). exists x', v'. split; [now right|exact H].
Qed.
Print Assumptions C55_ranges_partial.

(** and the daemon does not start with a number outside. *)
Theorem C55_refused : forall cf n lo hi v y, In (n, lo, hi) limits -> cf n = Some v -> integer_text v y ->
  -2147483648 <= y < 2147483648 -> ~ lo <= y <= hi ->
  (forall m a b, In (m, a, b) limits -> cf m <> None) -> validate_int_var_ranges cf = Ok None.
Proof.
  intros cf n lo hi v y I V T R OUT ALL.
  destruct (validate_int_var_ranges cf) as [[l|]|] eqn:E; [|reflexivity|].
  - exfalso. destruct (C55_ranges_partial _ _ E) as [_ K]. destruct (K _ _ _ I) as (x & v' & _ & V' & B & U).
    rewrite V in V'. inversion V'; subst v'. rewrite (U _ T R) in B. contradiction.
  - exfalso. revert E. unfold validate_int_var_ranges. change int_vars with limits. revert ALL. generalize limits.
    induction l as [|[[m a] b] r IH]; intros ALL; cbn [check_ranges]; [discriminate|].
    destruct (cf m) eqn:M; [|exfalso; eapply ALL; [now left|exact M]].
    destruct (range_check _ a b); [|discriminate].
    assert (H : check_ranges r cf <> Fault) by (intro; apply IH; [intros|assumption]; eapply ALL; right; eassumption).
    destruct (check_ranges r cf) as [[?|]|]; try discriminate. congruence.
Qed.
Print Assumptions C55_refused.

Definition numbers (port : bytes) : config := fun n => if bseq n ($ "UDPSERV_PORT") then Some port else Some ($ "30").
Example C55_ex : (exists l, validate_int_var_ranges (numbers ($ "62201")) = Ok (Some l) /\ In ($ "UDPSERV_PORT", 62201) l) /\
  integer_text ($ "131072") 131072 /\ validate_int_var_ranges (numbers ($ "131072")) = Ok None.
Proof.
  ands.
  - eexists. split; [vm_compute; reflexivity|]. cbn. tauto.
  - exists [], ($ "131072"). split; [reflexivity|]. split; [constructor|].
    split; [vm_compute; intuition congruence|]. right; right. split; [discriminate|]. split; [discriminate|].
    exists ($ "131072"), []. split; [reflexivity|]. split; [repeat constructor; vm_compute; congruence|]. split; [left; reflexivity|reflexivity].
  - vm_compute; reflexivity.
Qed.

(** C55 as stated does not hold: a port above 65535 is accepted. *)
Theorem C55_port_refuted : exists l, validate_int_var_ranges (numbers ($ "65559")) = Ok (Some l) /\ In ($ "UDPSERV_PORT", 65559) l.
Proof. eexists. split; [vm_compute; reflexivity|]. cbn. tauto. Qed.
Print Assumptions C55_port_refuted.
