(** The vocabulary of the property that goes from the texts of the files to the firewall. *)
From Verif Require Import Bytes S_text S_access S_conf M_util M_codec M_packet M_cycle M_replay M_access M_incoming M_conf M_accfile M_start M_fw M_fwinit M_daemon S_incoming S_fw S_fwinit S_accfile S_daemon S_start.
From Coq Require Import Init.Byte List ZArith Bool.
Import ListNotations.
Open Scope Z_scope.

(** The chain settings in use have their six fields; the names are not empty and are not too long
    for the command lines; rules are put in from position 1 on. *)
Definition chains_fit (cf : config) : Prop :=
  forall exe i n d P v, cf ($ "FIREWALL_EXE") = Some exe -> In (i, n, d, P) (chain_table cf) -> P -> says_or cf n d v ->
    exists target table from jump to, chain_line v target table from jump to /\ 1 <= jump /\
      ~ In [] [target; table; from; to] /\ Forall (fun x => zlen x <= 63) [target; table; from; to] /\ unmarked to /\
      zlen exe + zlen table + zlen from + zlen to + zlen target <= 100.
(** Source NAT, if some stanza or fwknopd.conf wants it, is enabled. *)
Definition source_nat_ready (cf : config) (accs : list acc) : Prop :=
  (exists a, In a accs /\ ints a i_snat <> 0) \/ enabled cf ($ "ENABLE_IPT_SNAT") ->
    nat_on cf /\ enabled cf ($ "ENABLE_IPT_SNAT").
(** The settings of the files suit the firewall. *)
Definition settings_fit (cf : config) (accs : list acc) : Prop :=
  chains_fit cf /\ source_nat_ready cf accs /\
  (forall exe, cf ($ "FIREWALL_EXE") = Some exe -> word exe) /\
  (forall ip, cf ($ "SNAT_TRANSLATE_IP") = Some ip -> zlen ip <= 15) /\
  (forall a, In a accs -> NoDup (l_open a)).
(** What may happen while the files stay as they are *)
Definition goes_on (x : turn) : Prop :=
  match x with
  | Receive en p later => packet_ok p /\ 0 <= later < 2147483648
  | Reread _ => False
  | _ => True
  end.
(** The daemon's state after its start: the stanzas, and what the replay cache holds *)
Definition fresh (sd : started) (rc : cache * M_replay.file) : sstate := mkSt (map to_stanza (sd_accs sd)) rc [].
(** The packet that arrived is let by stanza [s], the one of number [i], and [r] is a rule that
    this stanza makes for it, until [e]. *)
Definition granted_by (H : hashes) (G : gpg) (sd : started) (resolve : bytes -> option bytes) (s : stanza) (i : nat)
    (en : env) (p : packet) (later : Z) (t n : bytes) (r : rule) (e : Z) : Prop :=
  exists data fwd d, carries (sd_conf sd) p data /\ data_ok data /\ forwarded_read (sd_conf sd) p fwd /\
    lets H G (sd_conf sd) (e_now en) p fwd data s (1 + Z.of_nat i) (Grant (1 + Z.of_nat i) d) /\
    e = later + d_timeout d /\ rule_for (sd_fw sd) resolve (sd_chains sd) s d later t n r.
(** The access file is [lines], without includes; [bs] are its stanzas. *)
Definition plain_access (y : system) (name : bytes) (lines : list bytes) (bs : list block) : Prop :=
  y_file y name = Some (S_conf.file lines) /\ Forall line_ok lines /\
  exists pre, entries lines (pre ++ flatten bs) /\ absent pre ([$ "SOURCE"] ++ include_params) /\
    Forall (fun b => absent (snd b) ([$ "SOURCE"] ++ include_params)) bs.

(** ** The policy of fwknopd.conf *)
(** The settings by which packets are judged, each with its default *)
Definition policy (b : build) (cf : config) (c : conf) : Prop :=
  Forall (fun e => let '(n, d, v) := e in says_or cf n d v)
    [ ($ "ENABLE_DIGEST_PERSISTENCE", $ "Y", cf_digest_persistence c); ($ "ENABLE_SPA_OVER_HTTP", $ "N", cf_http c);
      ($ "ALLOW_ANY_USER_AGENT", $ "N", cf_any_user_agent c); ($ "ENABLE_X_FORWARDED_FOR", $ "N", cf_xff c);
      ($ "ENABLE_SPA_PACKET_AGING", match cf ($ "PCAP_FILE") with None => $ "Y" | Some _ => $ "N" end, cf_aging c);
      ($ "ENABLE_IPT_FORWARDING", $ "N", cf_forwarding c); ($ "ENABLE_IPT_LOCAL_NAT", $ "N", cf_local_nat c);
      ($ "SUDO_EXE", b_sudo_exe b, cf_sudo_exe c) ] /\
  exists v, says_or cf ($ "MAX_SPA_PACKET_AGE") ($ "120") v /\ 1 <= cf_max_age c <= 100000 /\
    forall y, integer_text v y -> -2147483648 <= y < 2147483648 -> cf_max_age c = y.
(** The file of name [name] in the directory [d] *)
Definition in_dir (d name p : bytes) : Prop :=
  (exists x, d = x ++ $ "/" /\ p = d ++ name) \/ ((forall x, d <> x ++ $ "/") /\ p = d ++ $ "/" ++ name).
(** Setting [n] of the daemon: what is said, or file [name] in the directory for running *)
Definition run_file (b : build) (cf cf' : config) (n name : bytes) : Prop :=
  (forall v, cf n = Some v -> cf' n = Some v) /\
  (cf n = None -> forall d, says_or cf ($ "FWKNOP_RUN_DIR") (b_run_dir b) d -> zlen d <= 1000 -> exists p, cf' n = Some p /\ in_dir d name p).
