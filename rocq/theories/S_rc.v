(** What the rc file and the command line of the client ask for, written without reference to
    its code.  Of the model only the names of the options and of their fields are used. *)
From Verif Require Import Bytes S_text S_conf S_accfile M_rc.
From Coq Require Import Init.Byte List ZArith Bool.
Import ListNotations.
Open Scope Z_scope.

(** ** Lines of the rc file *)
(** A heading: a name in square brackets *)
Definition heading (l n : bytes) : Prop :=
  ~ comment l /\ exists sp rest, l = sp ++ ["["%byte] ++ n ++ ["]"%byte] ++ rest /\ Forall blank sp /\ ~ In "]"%byte n.
(** A line that gives variable [n] the value [v]: the value is one word, what follows behind a
    blank, a semicolon or a hash does not count. *)
Definition sets (l n v : bytes) : Prop :=
  ~ comment l /\ (forall h, ~ heading l h) /\
  exists sp1 nm sp2 rest,
    l = sp1 ++ nm ++ sp2 ++ v ++ rest /\ Forall blank sp1 /\ nm <> [] /\ Forall (fun c => ~ blank c) nm /\ named nm n /\
    sp2 <> [] /\ Forall blank sp2 /\ v <> [] /\ Forall (fun c => ~ blank c /\ c <> ";"%byte /\ c <> "#"%byte) v /\
    (rest = [] \/ In (hd x00 rest) [" "%byte; x09; x0d; ";"%byte; "#"%byte]).
(** Names are compared without regard to case. *)
Definition same_name (a b : bytes) : Prop := map lower a = map lower b.
(** The entries of the stanzas with this name; the flag: the lines begin inside such a stanza *)
Inductive stanza (name : bytes) : bool -> list bytes -> list (bytes * bytes) -> Prop :=
| st_end h : stanza name h [] []
| st_comment h l ls es : comment l -> stanza name h ls es -> stanza name h (l :: ls) es
| st_enter h l n ls es : heading l n -> same_name n name -> stanza name true ls es -> stanza name h (l :: ls) es
| st_leave h l n ls es : heading l n -> ~ same_name n name -> stanza name false ls es -> stanza name h (l :: ls) es
| st_skip l ls es : ~ comment l -> (forall n, ~ heading l n) -> stanza name false ls es -> stanza name false (l :: ls) es
| st_entry l n v ls es : sets l n v -> stanza name true ls es -> stanza name true (l :: ls) ((n, v) :: es).

(** ** The command line *)
(** What an option says, in terms of variables of the rc file.  Options for which there is no
    variable, or that are read another way, appear under their own name. *)
Definition means (a : arg) : list (bytes * bytes) :=
  let '(c, v) := a in
  let yes := $ "Y" in
  let gpg := ($ "USE_GPG", yes) in
  let hmac := ($ "USE_HMAC", yes) in
  match c with
  | O_a => [($ "-a", v)]
  | O_A => [($ "ACCESS", v)]
  | O_b => [($ "-b", yes)]
  | O_B => [($ "-B", v)]
  | O_C => [($ "-C", v)]
  | O_D => [($ "SPA_SERVER", v)]
  | O_f => [($ "-f", v)]
  | O_g => [gpg]
  | O_G => [($ "KEY_FILE", v)]
  | O_get_hmac_key => [($ "--get-hmac-key", v); hmac]
  | O_H => [($ "-H", v); ($ "SPA_SERVER_PROTO", $ "http")]
  | O_k => [($ "-k", yes)]
  | O_K => [($ "-k", yes)]
  | O_key_rijndael => [($ "KEY", v)]
  | O_key_base64_rijndael => [($ "KEY_BASE64", v)]
  | O_key_hmac => [($ "HMAC_KEY", v); hmac]
  | O_key_base64_hmac => [($ "HMAC_KEY_BASE64", v); hmac]
  | O_hmac_digest_type => [($ "HMAC_DIGEST_TYPE", v); hmac]
  | O_hmac_key_len => [hmac]
  | O_use_hmac => [hmac]
  | O_icmp_type => [($ "--icmp-type", v)]
  | O_icmp_code => [($ "--icmp-code", v)]
  | O_l => [($ "-l", yes)]
  | O_m => [($ "DIGEST_TYPE", v)]
  | O_M => [($ "ENCRYPTION_MODE", v)]
  | O_no_save_args => [($ "NO_SAVE_ARGS", yes)]
  | O_n => [($ "-n", v)]
  | O_N => [($ "NAT_ACCESS", v)]
  | O_p => [($ "SPA_SERVER_PORT", v)]
  | O_P => [($ "SPA_SERVER_PROTO", v)]
  | O_Q => [($ "SPOOF_SOURCE_IP", v)]
  | O_r => [($ "RAND_PORT", yes)]
  | O_R => [($ "RESOLVE_IP_HTTPS", yes)]
  | O_resolve_http_only => [($ "RESOLVE_IP_HTTPS", yes); ($ "RESOLVE_HTTP_ONLY", yes)]
  | O_resolve_url => [($ "RESOLVE_URL", v)]
  | O_server_resolve_ipv4 => [($ "SERVER_RESOLVE_IPV4", yes)]
  | O_w => [($ "WGET_CMD", v)]
  | O_show_last => [($ "--show-last", yes)]
  | O_s => [($ "-s", yes)]
  | O_S => [($ "SPA_SOURCE_PORT", v)]
  | O_T => [($ "-T", yes)]
  | O_u => [($ "HTTP_USER_AGENT", v)]
  | O_U => [($ "SPOOF_USER", v)]
  | O_v => [($ "-v", yes)]
  | O_V => [($ "-V", yes)]
  | O_gpg_recipient_key => [($ "GPG_RECIPIENT", v); gpg]
  | O_gpg_signer_key => [($ "GPG_SIGNER", v); gpg]
  | O_gpg_home_dir => [($ "--gpg-home-dir", v); gpg]
  | O_gpg_exe => [($ "GPG_EXE", v); gpg]
  | O_gpg_agent => [($ "USE_GPG_AGENT", yes); gpg]
  | O_gpg_no_signing_pw => [($ "GPG_NO_SIGNING_PW", yes); gpg]
  | O_nat_local => [($ "NAT_LOCAL", yes)]
  | O_nat_rand_port => [($ "NAT_RAND_PORT", yes)]
  | O_nat_port => [($ "NAT_PORT", v)]
  | O_time_plus => [($ "--time-offset-plus", v)]
  | O_time_minus => [($ "--time-offset-minus", v)]
  | O_use_wget_user_agent => [($ "USE_WGET_USER_AGENT", yes)]
  | O_save_rc_stanza => [($ "--save-rc-stanza", yes)]
  | O_force_stanza => [($ "--force-stanza", yes)]
  | O_no_rc_file => [($ "--no-rc-file", yes)]
  | _ => []
  end.
Definition command (args : list arg) : list (bytes * bytes) := concat (map means args).

Definition mentioned (b : list (bytes * bytes)) (p : bytes) : Prop := exists v, In (p, v) b.
(** What the rc file says for a command line: nothing if it is not to be read, otherwise the
    default stanza and behind it the one asked for; that is not read when it is to be saved. *)
Definition stanza_name (c : list (bytes * bytes)) (name : bytes) : Prop :=
  decided c [$ "-n"] (fun _ v x => x = ztake 1023 v) [] name.
Definition rc_says (lines : list bytes) (c b : list (bytes * bytes)) : Prop :=
  (mentioned c ($ "--no-rc-file") /\ b = []) \/
  (~ mentioned c ($ "--no-rc-file") /\ exists name d s, b = d ++ s /\ stanza_name c name /\ stanza ($ "default") false lines d /\
     (((name = [] \/ mentioned c ($ "--save-rc-stanza")) /\ s = []) \/
      (name <> [] /\ ~ mentioned c ($ "--save-rc-stanza") /\ stanza name false lines s /\
       exists l n, In l lines /\ heading l n /\ same_name n name))).

(** ** Settings *)
(** Texts: variables, field, room *)
Definition text_vars : list (list bytes * tfield * Z) :=
  [ ([$ "ACCESS"], t_access, 1023); ([$ "SPA_SERVER"], t_server, 49); ([$ "SPOOF_USER"], t_user, 29);
    ([$ "SPOOF_SOURCE_IP"], t_spoof_ip, 15); ([$ "GPG_RECIPIENT"], t_recipient, 127); ([$ "GPG_SIGNER"], t_signer, 127);
    ([$ "GPG_EXE"], t_gpg_exe, 1023); ([$ "KEY"; $ "GPG_SIGNING_PW"], t_key, 128);
    ([$ "KEY_BASE64"; $ "GPG_SIGNING_PW_BASE64"], t_key64, 180); ([$ "HMAC_KEY"], t_hmac, 128);
    ([$ "HMAC_KEY_BASE64"], t_hmac64, 180); ([$ "NAT_ACCESS"], t_nat, 1023); ([$ "-C"], t_command, 1023); ([$ "-B"], t_save_file, 1023);
    ([$ "-H"], t_proxy, 1999) ].
Definition number_in (hi : Z) (v : bytes) (x : Z) : Prop :=
  0 <= x <= hi /\ forall n, integer_text v n -> -2147483648 <= n < 2147483648 -> x = n.
Definition protocols : list (bytes * Z) :=
  [ ($ "udp", 0); ($ "udpraw", 1); ($ "tcp", 2); ($ "tcpraw", 3); ($ "icmp", 4); ($ "http", 5) ].
(** Numbers: variables, field, what a value stands for, default *)
Definition number_vars : list (list bytes * qfield * (bytes -> bytes -> Z -> Prop) * Z) :=
  [ ([$ "DIGEST_TYPE"], q_digest, fun _ v x => one_of digests v x, 0);
    ([$ "SPA_SERVER_PROTO"], q_proto, fun _ v x => one_of protocols v x, 0);
    ([$ "SPA_SERVER_PORT"], q_dport, fun _ v x => number_in 65535 v x, 62201);
    ([$ "SPA_SOURCE_PORT"], q_sport, fun _ v x => number_in 65535 v x, 0);
    ([$ "FW_TIMEOUT"; $ "-f"], q_timeout, fun p v x => number_in (if bseq p ($ "-f") then 131072 else 65536) v x, -1);
    ([$ "ENCRYPTION_MODE"], q_mode, fun _ v x => one_of modes v x, 0);
    ([$ "NAT_PORT"], q_nat_port, fun _ v x => number_in 65535 v x, 0);
    ([$ "--icmp-type"], q_icmp_type, fun _ v x => number_in 40 v x, 0);
    ([$ "--icmp-code"], q_icmp_code, fun _ v x => number_in 15 v x, 0) ].
(** Switches: some entry turns it on, there is no way to turn it off again. *)
Definition turned_on (b : list (bytes * bytes)) (p : bytes) : Prop := In (p, $ "Y") b \/ In (p, $ "y") b.
Definition switch (P : Prop) (x : Z) : Prop := (P /\ x = 1) \/ (~ P /\ x = 0).
Definition switches : list (bytes * qfield) :=
  [ ($ "USE_GPG", q_use_gpg); ($ "USE_GPG_AGENT", q_gpg_agent); ($ "GPG_NO_SIGNING_PW", q_gpg_no_pw); ($ "RAND_PORT", q_rand_port);
    ($ "USE_WGET_USER_AGENT", q_wget_agent); ($ "RESOLVE_HTTP_ONLY", q_http_only); ($ "SERVER_RESOLVE_IPV4", q_ipv4);
    ($ "NAT_LOCAL", q_nat_local); ($ "NAT_RAND_PORT", q_nat_rand); ($ "NO_SAVE_ARGS", q_no_save);
    ($ "-b", q_append); ($ "-T", q_test); ($ "-k", q_key_gen); ($ "-V", q_version); ($ "--show-last", q_show_last); ($ "-l", q_run_last);
    ($ "--force-stanza", q_force) ].
Definition given_vars : list (list bytes * qfield) :=
  [ ([$ "KEY"; $ "GPG_SIGNING_PW"], q_have_key); ([$ "KEY_BASE64"; $ "GPG_SIGNING_PW_BASE64"], q_have_key64);
    ([$ "HMAC_KEY"], q_have_hmac); ([$ "HMAC_KEY_BASE64"], q_have_hmac64); ([$ "RESOLVE_URL"], q_have_url) ].
(** A time: up to 8 digits, and a letter for the unit *)
Definition units : list (bytes * Z) := [ ([], 1); ($ "m", 60); ($ "M", 60); ($ "h", 3600); ($ "H", 3600); ($ "d", 86400); ($ "D", 86400) ].
Definition seconds (v : bytes) (x : Z) : Prop :=
  forall ds u k, v = ds ++ u -> In (u, k) units -> all_digits ds -> 1 <= zlen ds -> x = decimal ds * k.
(** TIME_OFFSET with a minus sign is an offset back. *)
Definition offsets (e : bytes * bytes) : bytes * bytes :=
  if bseq (fst e) ($ "TIME_OFFSET")
  then if beq (hd x00 (snd e)) "-"%byte then ($ "--time-offset-minus", tl (snd e)) else ($ "--time-offset-plus", snd e)
  else e.
(** The address: a line with resolve does not name one. *)
Definition names_ip (e : bytes * bytes) : bool :=
  negb (bseq (fst e) ($ "ALLOW_IP") && bseq (map lower (snd e)) ($ "resolve")).
Definition address (p v x : bytes) : Prop :=
  if bseq p ($ "-s") then x = $ "0.0.0.0"
  else if bseq p ($ "ALLOW_IP") && bseq (map lower v) ($ "source") then x = $ "0.0.0.0"
  else x = ztake 15 v.
Fixpoint count (p : bytes) (b : list (bytes * bytes)) : Z :=
  match b with [] => 0 | e :: r => (if bseq (fst e) p then 1 else 0) + count p r end.
(** A directory without the slash behind it *)
Definition without_slash (v : bytes) : bytes :=
  match rev v with c :: d :: r => if beq c "/"%byte then rev (d :: r) else v | _ => v end.
(** [r]: entries of the rc file, [c]: of the command line *)
Record settings (r c : list (bytes * bytes)) (o : copts) : Prop := {
  se_text : forall ps f k, In (ps, f, k) text_vars -> decided (r ++ c) ps (fun _ v x => x = ztake k v) [] (txt o f);
  se_url : decided (r ++ c) [$ "RESOLVE_URL"] (fun _ v x => x = v) [] (txt o t_url);
  se_wget : decided (r ++ c) [$ "WGET_CMD"] (fun _ v x => x = v) [] (txt o t_wget);
  se_key_file : ~ mentioned r ($ "HMAC_KEY_FILE") -> decided (r ++ c) [$ "KEY_FILE"] (fun _ v x => x = ztake 1023 v) [] (txt o t_key_file);
  se_hmac_file : decided c [$ "--get-hmac-key"] (fun _ v x => x = ztake 1023 v) [] (txt o t_hmac_file);
  se_gpg_home : decided (r ++ c) [$ "GPG_HOMEDIR"; $ "--gpg-home-dir"]
    (fun p v x => (p = $ "GPG_HOMEDIR" -> x = ztake 1023 v) /\
                  (p <> $ "GPG_HOMEDIR" -> zlen v <= 1023 -> x = without_slash v)) [] (txt o t_gpg_home);
  se_ip : decided (filter names_ip (r ++ c)) [$ "ALLOW_IP"; $ "-a"; $ "-s"] address [] (txt o t_ip);
  se_number : forall ps f R d, In (ps, f, R, d) number_vars -> decided (r ++ c) ps R d (num o f);
  se_plus : decided (map offsets (r ++ c)) [$ "--time-offset-plus"] (fun _ v x => seconds v x) 0 (num o q_plus);
  se_minus : decided (map offsets (r ++ c)) [$ "--time-offset-minus"] (fun _ v x => seconds v x) 0 (num o q_minus);
  se_switch : forall p f, In (p, f) switches -> switch (turned_on (r ++ c) p) (num o f);
  se_given : forall ps f, In (ps, f) given_vars -> switch (exists p, In p ps /\ mentioned (r ++ c) p) (num o f);
  se_use_hmac : switch (turned_on (r ++ c) ($ "USE_HMAC") \/ mentioned (r ++ c) ($ "HMAC_KEY") \/ mentioned (r ++ c) ($ "HMAC_KEY_BASE64")) (num o q_use_hmac);
  se_hmac_type : decided (r ++ c) [$ "HMAC_DIGEST_TYPE"] (fun _ v x => one_of digests v x)
    (if (num o q_use_hmac =? 1) || (num o q_key_gen =? 1) then 3 else 0) (num o q_hmac_type);
  se_verbose : decided r [$ "VERBOSE"] (fun _ v x => (v = $ "Y" \/ v = $ "y" -> x = 1) /\ (v <> $ "Y" -> v <> $ "y" -> number_in 4 v x))
    (count ($ "-v") c mod 256) (num o q_verbose);
  (* the address is looked up in the network only if none is given *)
  se_resolve : txt o t_ip <> [] -> same_name (ztake 7 (txt o t_ip)) ($ "resolve") \/ num o q_resolve = 0;
  se_resolve_url : txt o t_ip = [] -> num o q_test = 0 -> num o q_key_gen = 0 -> num o q_version = 0 -> num o q_show_last = 0 -> num o q_run_last = 0 ->
    num o q_resolve = 1;
  se_agent : decided (r ++ c) [$ "HTTP_USER_AGENT"] (fun _ v x => v <> [] -> x = ztake 99 v)
    (if (num o q_resolve =? 1) || (num o q_proto =? 5) then $ "Fwknop/2.6.11" else []) (txt o t_agent) }.

(** ** Entries that are accepted *)
Definition variables : list bytes :=
  [ $ "DIGEST_TYPE"; $ "SPA_SERVER_PROTO"; $ "SPA_SERVER_PORT"; $ "SPA_SOURCE_PORT"; $ "FW_TIMEOUT"; $ "ALLOW_IP"; $ "TIME_OFFSET";
    $ "ENCRYPTION_MODE"; $ "USE_GPG"; $ "USE_GPG_AGENT"; $ "GPG_RECIPIENT"; $ "GPG_SIGNER"; $ "GPG_HOMEDIR"; $ "GPG_EXE";
    $ "GPG_SIGNING_PW"; $ "GPG_SIGNING_PW_BASE64"; $ "GPG_NO_SIGNING_PW"; $ "SPOOF_USER"; $ "SPOOF_SOURCE_IP"; $ "ACCESS"; $ "SPA_SERVER";
    $ "RAND_PORT"; $ "KEY"; $ "KEY_BASE64"; $ "HMAC_DIGEST_TYPE"; $ "HMAC_KEY_BASE64"; $ "HMAC_KEY"; $ "USE_HMAC"; $ "USE_WGET_USER_AGENT";
    $ "KEY_FILE"; $ "HMAC_KEY_FILE"; $ "NAT_ACCESS"; $ "HTTP_USER_AGENT"; $ "RESOLVE_URL"; $ "SERVER_RESOLVE_IPV4"; $ "NAT_LOCAL";
    $ "NAT_RAND_PORT"; $ "NAT_PORT"; $ "VERBOSE"; $ "RESOLVE_IP_HTTP"; $ "RESOLVE_IP_HTTPS"; $ "RESOLVE_HTTP_ONLY"; $ "WGET_CMD"; $ "NO_SAVE_ARGS" ].
Definition base64_text (v : bytes) : Prop :=
  Forall (fun c => letter_or_digit c \/ c = "+"%byte \/ c = "/"%byte \/ c = "="%byte) v.
Record allowed (n v : bytes) : Prop := {
  al_known : In n variables;
  al_digest : n = $ "DIGEST_TYPE" \/ n = $ "HMAC_DIGEST_TYPE" -> exists x, one_of digests v x;
  al_mode : n = $ "ENCRYPTION_MODE" -> exists x, one_of modes v x;
  al_proto : n = $ "SPA_SERVER_PROTO" -> exists x, one_of protocols v x;
  al_port : In n [$ "SPA_SERVER_PORT"; $ "SPA_SOURCE_PORT"; $ "NAT_PORT"] -> exists x, number_in 65535 v x;
  al_timeout : n = $ "FW_TIMEOUT" -> exists x, number_in 65536 v x;
  al_ip : n = $ "ALLOW_IP" -> same_name v ($ "source") \/ same_name v ($ "resolve") \/ exists a b c d, ipv4_text (ztake 15 v) a b c d;
  al_base64 : In n [$ "KEY_BASE64"; $ "GPG_SIGNING_PW_BASE64"; $ "HMAC_KEY_BASE64"] -> base64_text v;
  al_offset : n = $ "TIME_OFFSET" -> exists ds, ds <> [] /\ (forall c, In c ds -> In c v) /\ all_digits ds /\ zlen ds <= 8 /\ decimal ds <= 65536 }.

(** ** Settings that can be used *)
(** The options with which a packet is sent; the others test, make keys, print or repeat. *)
Definition sends (o : copts) : Prop :=
  num o q_test = 0 /\ num o q_key_gen = 0 /\ num o q_version = 0 /\ num o q_show_last = 0 /\ num o q_run_last = 0.
Definition an_address (s : bytes) : Prop := exists a b c d, ipv4_text s a b c d.
Record usable (o : copts) : Prop := {
  us_server : sends o -> txt o t_server <> [];
  us_some : sends o -> txt o t_ip <> [] \/ num o q_resolve = 1;
  us_ip : txt o t_ip <> [] -> same_name (ztake 7 (txt o t_ip)) ($ "resolve") \/ an_address (txt o t_ip);
  (* a forged source address is an address, and goes with udpraw, tcpraw and icmp *)
  us_spoof : txt o t_spoof_ip <> [] -> an_address (txt o t_spoof_ip) /\ In (num o q_proto) [1; 3; 4];
  us_proxy : txt o t_proxy <> [] -> num o q_proto = 5;
  us_gpg : num o q_use_gpg = 1 -> txt o t_recipient <> [];
  us_asymmetric : num o q_mode = 7 -> num o q_use_gpg = 1;
  us_legacy : num o q_mode = 8 -> num o q_use_hmac = 0 }.

(** ** Saving a stanza *)
(** The entries that are written for the options of the command line, in the order of the
    variables *)
Definition saved (o : copts) (m : mask) : list (bytes * bytes) :=
  flat_map (fun '(n, x) => if mem_var x m then match var_text x o with Some v => [(n, v)] | None => [] end else []) var_array.
(** A word that can be read back as a value *)
Definition one_word (v : bytes) : Prop := zlen v <= 990 /\ v <> [] /\ ~ In x00 v /\ Forall (fun c => ~ blank c /\ c <> ";"%byte /\ c <> "#"%byte) v.
Definition memb_bytes (n : bytes) (l : list bytes) : bool := existsb (bseq n) l.
(** Variables that are not overwritten without a question *)
Definition secrets : list bytes :=
  [$ "KEY"; $ "KEY_BASE64"; $ "HMAC_KEY"; $ "HMAC_KEY_BASE64"; $ "GPG_RECIPIENT"; $ "GPG_SIGNER"; $ "GPG_SIGNING_PW"; $ "GPG_SIGNING_PW_BASE64"].
(** The old entries that stay: those for which the answer is no; [yes i] is the answer to the
    i-th question. *)
Fixpoint keep (yes : nat -> bool) (i : nat) (es : list (bytes * bytes)) : list (bytes * bytes) :=
  match es with
  | [] => []
  | (n, v) :: r => if memb_bytes n secrets then if yes i then keep yes (S i) r else (n, v) :: keep yes (S i) r else keep yes i r
  end.
(** A name that can stand in a heading *)
Definition stanza_word (n : bytes) : Prop := ~ In "]"%byte n /\ ~ In x0a n /\ ~ In x00 n /\ ~ In x0b n /\ ~ In x0c n.
(** Two headings with the name *)
Definition twice (name : bytes) (lines : list bytes) : Prop :=
  exists a l n b l' n' c, lines = a ++ l :: b ++ l' :: c /\ heading l n /\ heading l' n' /\ same_name n name /\ same_name n' name.
(** The entries that are not about one of these names *)
Definition besides (names : list bytes) (es : list (bytes * bytes)) : list (bytes * bytes) := filter (fun e => negb (memb_bytes (fst e) names)) es.
(** Options that are kept in a stanza when they are saved, or have no effect on the packet *)
Definition savable (c : copt) : bool :=
  match c with
  | O_b | O_B | O_C | O_get_hmac_key | O_H | O_k | O_K | O_l | O_s | O_T | O_V | O_show_last | O_icmp_type | O_icmp_code | O_no_rc_file => false
  | _ => true
  end.
(** The same settings, apart from those of the run itself *)
Definition same_settings (o o' : copts) : Prop :=
  (forall f, ~ In f [t_stanza; t_args_file; t_rc_file; t_gen_file] -> txt o' f = txt o f) /\
  (forall f, ~ In f [q_verbose; q_no_save; q_key_len; q_hmac_key_len; q_no_home; q_got; q_save; q_force; q_fd; q_list; q_no_rc] -> num o' f = num o f).
