(** Properties of saving the options of the client: stanzas of the rc file. *)
From Verif Require Import Bytes M_accfile M_base64 M_util M_message M_codec M_cipher M_ctx M_access M_replay M_cycle M_incoming M_conf M_codec M_client M_send
  S_base64 S_text S_codec S_cipher S_ctx S_access S_cycle S_incoming S_conf S_accfile S_client S_send T_codec T_client M_rc S_rc P_bytes P_client2 P_client6 P_rc2 P_rc7 P_rc8 P_rc9 P_rc10 T_rc.
From Coq Require Import Init.Byte List ZArith Bool Lia.
Import ListNotations.
Open Scope Z_scope.

(** ** C74 Saving a stanza *)
(** [lines] are the lines of the old file, which ends with a line end.  The other stanzas say
    what they said; the stanza says what was asked for, apart from the keys for which the
    question was answered with no.
    Missing for the full property: comments are lost, and the other refutations below. *)
Theorem C74_saved_partial : forall ask o m lines new, plain_lines lines -> ~ twice (txt o t_stanza) lines -> stanza_word (txt o t_stanza) ->
  Forall (fun e => one_word (snd e)) (saved o m) -> save_text ask o m (file (lines ++ [[]])) = (new, true) ->
  exists newlines kept, new = file (newlines ++ [[]]) /\
    (forall n es, ~ same_name n (txt o t_stanza) -> stanza n false lines es -> stanza n false newlines es) /\
    stanza (txt o t_stanza) false newlines (kept ++ besides (map fst kept) (saved o m)) /\
    (num o q_force <> 0 -> kept = []) /\ (num o q_force = 0 -> exists es, stanza (txt o t_stanza) false lines es /\ kept = keep ask 0 es).
Proof.
  intros ask o m lines new (LO & SI & _) T (SN & S2) OW E.
  destruct (save_spec ask o m lines new LO SI T (conj SN S2) OW E) as (nl & kept & A & _ & _ & B & C & D & _). exists nl, kept.
  split; [exact A|]. split; [exact B|]. split; [exact C|]. unfold is_set in D. destruct (Z.eqb_spec (num o q_force) 0) as [Z|Z]; cbn [negb] in D.
  - split; [intros Q; contradiction|]. intros _. exact D.
  - split; [intros _; exact D|]. intros Q; contradiction.
Qed.
Print Assumptions C74_saved_partial.
(** The file is replaced as a whole: at every moment it is the old one or the new one, or the
    new one is still under its other name.
    Missing for the full property: the last case, see below. *)
Theorem C74_crash_partial : forall ask o m old new go s, save_text ask o m old = (new, go) -> In s (update_rc ask o m (mkRcFiles (Some old) None)) ->
  rf_rc s = Some old \/ (go = true /\ s = mkRcFiles None (Some new)) \/ (go = true /\ s = mkRcFiles (Some new) None).
Proof.
  intros ask o m old new go s E I. unfold update_rc in I. cbn [rf_upd rf_rc] in I. rewrite E in I. destruct I as [<-|I]; [left; reflexivity|].
  apply in_app_or in I as [I|I].
  - apply in_map_iff in I as (k & <- & _). left. reflexivity.
  - destruct go; [|destruct I]. destruct I as [<-|[<-|[]]]; auto.
Qed.
Print Assumptions C74_crash_partial.
(** After a run that is not interrupted and finds no malformed line, the new file is in place
    and the other one is gone. *)
Theorem C74_done : forall ask o m old new, save_text ask o m old = (new, true) ->
  last (update_rc ask o m (mkRcFiles (Some old) None)) (mkRcFiles None None) = mkRcFiles (Some new) None.
Proof.
  intros ask o m old new E. unfold update_rc. cbn [rf_upd rf_rc]. rewrite E. change [mkRcFiles None (Some new); mkRcFiles (Some new) None] with ([mkRcFiles None (Some new)] ++ [mkRcFiles (Some new) None]).
  rewrite app_assoc, app_comm_cons. apply last_last.
Qed.
Print Assumptions C74_done.

(** Samples *)
Definition save_args0 : list arg := [(O_save_rc_stanza, []); (O_n, $ "HOME"); (O_D, $ "10.2.2.2"); (O_A, $ "tcp/8080"); (O_a, $ "10.1.1.4"); (O_key_rijndael, $ "newkey"); (O_p, $ "4000")].
Definition no : nat -> bool := fun _ => false.
Definition after (rc : list bytes) (args : list arg) (ask : nat -> bool) : option (bytes * bool) :=
  match config_init (Some (file rc)) args with Ok (Some (o, m)) => Some (save_text ask o m (file rc)) | _ => None end.
Lemma after_saved rc args ask r : after rc args ask = Some r -> exists o m, config_init (Some (file rc)) args = Ok (Some (o, m)) /\ save_text ask o m (file rc) = r.
Proof. unfold after. destruct (config_init (Some (file rc)) args) as [[[o m]|]|]; intros E; try discriminate. injection E as E. eauto. Qed.
Definition once_more (rc : bytes) (args : list arg) (P : copts -> bool) : bool := match config_init (Some rc) args with Ok (Some (o, _)) => P o | _ => false end.
Definition wordb (v : bytes) : bool := (zlen v <=? 990) && negb (bseq v []) && forallb (fun c => negb (memb c [x00; " "%byte; x09; x0a; x0b; x0c; x0d; ";"%byte; "#"%byte])) v.
Lemma wordb_ok v : wordb v = true -> one_word v.
Proof.
  unfold wordb. rewrite !andb_true_iff, negb_true_iff. intros ((L & N) & F). rewrite forallb_forall in F. split; [lia|].
  assert (Q : forall b, In b v -> ~ In b [x00; " "%byte; x09; x0a; x0b; x0c; x0d; ";"%byte; "#"%byte]). { intros b I J. apply F in I. apply memb_In in J. rewrite J in I. discriminate I. }
  split; [intros ->; discriminate N|]. split; [intros I; apply Q in I; apply I; cbn; tauto|]. apply Forall_forall. intros b I. apply Q in I. rewrite blank_spec. cbn [In] in *. intuition.
Qed.
Lemma twiceb name lines : (List.length (filter (fun l => match rc_section l with Some n => strcaseeq n name | None => false end) lines) < 2)%nat -> ~ twice name lines.
Proof.
  intros L (a & l & n & b & l' & n' & c & -> & H & H' & S & S'). apply heading_rc_section in H, H'. apply same_name_eq in S, S'.
  rewrite filter_app in L. cbn [filter] in L. rewrite H, S, filter_app in L. cbn [filter] in L. rewrite H', S', !app_length in L. cbn [length] in L. rewrite app_length in L. cbn [length] in L. lia.
Qed.
(** The stanza [Home] of the sample file is replaced, but its keys stay. *)
Example C74_ex : plain_lines rc0 /\ exists o m, config_init (Some (file (rc0 ++ [[]]))) save_args0 = Ok (Some (o, m)) /\ ~ twice (txt o t_stanza) rc0 /\ stanza_word (txt o t_stanza) /\
  Forall (fun e => one_word (snd e)) (saved o m) /\ save_text no o m (file (rc0 ++ [[]])) = (file [$ "[default]"; $ "SPA_SERVER_PORT  62000"; $ "USE_HMAC Y ; always"; $ "DIGEST_TYPE  sha512"; $ "  [Home]";
    $ "KEY secret # not this"; $ "HMAC_KEY hmackey"; $ "SPA_SERVER_PORT             4000"; $ "ALLOW_IP                    10.1.1.4"; $ "ACCESS                      tcp/8080"; $ "SPA_SERVER                  10.2.2.2";
    []; $ "[work]"; $ "SPA_SERVER work.example.org"; []], true).
Proof.
  split; [apply plainb_ok; vm_compute; reflexivity|].
  destruct (config_init (Some (file (rc0 ++ [[]]))) save_args0) as [[[o m]|]|] eqn:E; [|exfalso; vm_compute in E; discriminate E..].
  exists o, m. split; [reflexivity|].
  assert (T : bseq (txt o t_stanza) ($ "HOME") && forallb (fun e => wordb (snd e)) (saved o m) && (snd (save_text no o m (file (rc0 ++ [[]])))) &&
    bseq (fst (save_text no o m (file (rc0 ++ [[]])))) (file [$ "[default]"; $ "SPA_SERVER_PORT  62000"; $ "USE_HMAC Y ; always"; $ "DIGEST_TYPE  sha512"; $ "  [Home]";
    $ "KEY secret # not this"; $ "HMAC_KEY hmackey"; $ "SPA_SERVER_PORT             4000"; $ "ALLOW_IP                    10.1.1.4"; $ "ACCESS                      tcp/8080"; $ "SPA_SERVER                  10.2.2.2";
    []; $ "[work]"; $ "SPA_SERVER work.example.org"; []]) = true).
  { assert (X : match config_init (Some (file (rc0 ++ [[]]))) save_args0 with Ok (Some (o, m)) => bseq (txt o t_stanza) ($ "HOME") && forallb (fun e => wordb (snd e)) (saved o m) && (snd (save_text no o m (file (rc0 ++ [[]])))) &&
      bseq (fst (save_text no o m (file (rc0 ++ [[]])))) (file [$ "[default]"; $ "SPA_SERVER_PORT  62000"; $ "USE_HMAC Y ; always"; $ "DIGEST_TYPE  sha512"; $ "  [Home]";
      $ "KEY secret # not this"; $ "HMAC_KEY hmackey"; $ "SPA_SERVER_PORT             4000"; $ "ALLOW_IP                    10.1.1.4"; $ "ACCESS                      tcp/8080"; $ "SPA_SERVER                  10.2.2.2";
      []; $ "[work]"; $ "SPA_SERVER work.example.org"; []]) | _ => false end = true) by (vm_compute; reflexivity).
    rewrite E in X. exact X. }
  rewrite !andb_true_iff in T. destruct T as (((T1 & T2) & T3) & T4). apply bseq_eq in T1, T4. rewrite T1.
  split; [apply twiceb; vm_compute; lia|]. split.
  { split; [intros Q; vm_compute in Q; intuition discriminate|]. repeat split; intros Q; vm_compute in Q; intuition discriminate. }
  split. { apply Forall_forall. intros e I. rewrite forallb_forall in T2. now apply wordb_ok, T2. }
  destruct (save_text no o m (file (rc0 ++ [[]]))) as [x y]. cbn [fst snd] in *. now subst.
Qed.
(** Comments are lost, in all stanzas. *)
Theorem C74_comments_refuted : exists o m, config_init (Some (file [$ "# my servers"; $ "[a]"; $ "ACCESS tcp/22"; []])) save_args0 = Ok (Some (o, m)) /\
  exists new, save_text no o m (file [$ "# my servers"; $ "[a]"; $ "ACCESS tcp/22"; []]) = (new, true) /\ ~ In "#"%byte new.
Proof.
  destruct (after_saved [$ "# my servers"; $ "[a]"; $ "ACCESS tcp/22"; []] save_args0 no _ ltac:(vm_compute; reflexivity)) as (o & m & A & B).
  exists o, m. split; [exact A|]. eexists. split; [exact B|]. intros Q. apply memb_In in Q. vm_compute in Q. discriminate Q.
Qed.
Print Assumptions C74_comments_refuted.
(** Two runs: the first one saves, the second one reads what was saved. *)
Definition two_runs (rc : bytes) (args : list arg) (ask : nat -> bool) (args2 : list arg) (P : copts -> copts -> bool) : bool :=
  match config_init (Some rc) args with
  | Ok (Some (o, m)) => let '(new, go) := save_text ask o m rc in go && match config_init (Some new) args2 with Ok (Some (o', _)) => P o o' | _ => false end
  | _ => false
  end.
Lemma two_runs_saved rc args ask args2 P : two_runs rc args ask args2 P = true -> exists o m new, config_init (Some rc) args = Ok (Some (o, m)) /\ save_text ask o m rc = (new, true) /\
  exists o' m', config_init (Some new) args2 = Ok (Some (o', m')) /\ P o o' = true.
Proof.
  unfold two_runs. destruct (config_init (Some rc) args) as [[[o m]|]|]; try discriminate. destruct (save_text ask o m rc) as [new [|]] eqn:E; [|discriminate].
  cbn [andb]. destruct (config_init (Some new) args2) as [[[o' m']|]|] eqn:E'; try discriminate. intros H. exists o, m, new. split; [reflexivity|]. split; [exact E|]. exists o', m'. auto.
Qed.
Ltac two rc args args2 P := destruct (two_runs_saved rc args no args2 P) as (o & m & new & A & B & o' & m' & C & D); [vm_compute; reflexivity|exists o, m, new; split; [exact A|]; split; [exact B|]; exists o', m'; split; [exact C|];
  cbv beta in D; rewrite ?andb_true_iff, ?Z.eqb_eq, ?bseq_eq in D; intuition].
(** Two stanzas of this name, one behind the other: the second one is not replaced, and its
    entries count. *)
Theorem C74_twice_refuted : exists o m new, config_init (Some (file [$ "[home]"; $ "[home]"; $ "ACCESS tcp/22"; []])) save_args0 = Ok (Some (o, m)) /\
  save_text no o m (file [$ "[home]"; $ "[home]"; $ "ACCESS tcp/22"; []]) = (new, true) /\
  exists o' m', config_init (Some new) [(O_n, $ "home")] = Ok (Some (o', m')) /\ txt o t_access = $ "tcp/8080" /\ txt o' t_access = $ "tcp/22".
Proof. two (file [$ "[home]"; $ "[home]"; $ "ACCESS tcp/22"; []]) save_args0 [(O_n, $ "home")] (fun o o' => bseq (txt o t_access) ($ "tcp/8080") && bseq (txt o' t_access) ($ "tcp/22")). Qed.
Print Assumptions C74_twice_refuted.
(** A heading in the last line, without a line end: the first variable that is saved is added
    to the heading and has no effect. *)
Theorem C74_last_line_refuted : exists o m new, config_init (Some (file [$ "[home]"])) save_args0 = Ok (Some (o, m)) /\ save_text no o m (file [$ "[home]"]) = (new, true) /\
  exists o' m', config_init (Some new) [(O_n, $ "home")] = Ok (Some (o', m')) /\ num o q_dport = 4000 /\ num o' q_dport = 62201.
Proof. two (file [$ "[home]"]) save_args0 [(O_n, $ "home")] (fun o o' => (num o q_dport =? 4000) && (num o' q_dport =? 62201)). Qed.
Print Assumptions C74_last_line_refuted.
(** A malformed line in the stanza: nothing is saved, and the new file stays behind, so that
    nothing can be saved later either, whatever is asked for. *)
Theorem C74_malformed_refuted : exists o m f, config_init (Some (file [$ "[home]"; $ "ACCESS"; []])) save_args0 = Ok (Some (o, m)) /\
  last (update_rc no o m (mkRcFiles (Some (file [$ "[home]"; $ "ACCESS"; []])) None)) (mkRcFiles None None) = f /\
  rf_rc f = Some (file [$ "[home]"; $ "ACCESS"; []]) /\ rf_upd f <> None /\ forall ask o' m' rc, update_rc ask o' m' (mkRcFiles rc (rf_upd f)) = [mkRcFiles rc (rf_upd f)].
Proof.
  destruct (after_saved [$ "[home]"; $ "ACCESS"; []] save_args0 no _ ltac:(vm_compute; reflexivity)) as (o & m & A & B).
  exists o, m. eexists. split; [exact A|]. split; [reflexivity|]. unfold update_rc at 1 2 3 4 5. cbn [rf_upd rf_rc]. rewrite B.
  split; [vm_compute; reflexivity|]. split; [vm_compute; discriminate|]. intros. vm_compute. reflexivity.
Qed.
Print Assumptions C74_malformed_refuted.
(** The old file is removed before the new one gets its name: there is a moment with no rc file
    at all, whenever a stanza is saved. *)
Theorem C74_crash_refuted : forall ask o m old new, save_text ask o m old = (new, true) ->
  exists s, In s (update_rc ask o m (mkRcFiles (Some old) None)) /\ rf_rc s = None.
Proof.
  intros ask o m old new E. exists (mkRcFiles None (Some new)). split; [|reflexivity]. unfold update_rc. cbn [rf_upd rf_rc]. rewrite E.
  right. apply in_or_app. right. now left.
Qed.
Print Assumptions C74_crash_refuted.
