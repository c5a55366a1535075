(** What an access file says, written without reference to the reader in M_accfile (only the
    names of the fields of a stanza come from there). *)
From Verif Require S_access M_access.
From Verif Require Import Bytes S_text S_base64 S_conf M_accfile.
From Coq Require Import Init.Byte List ZArith.
Import ListNotations.
Open Scope Z_scope.

(** ** Lines and entries *)
(** The name of a parameter may be followed by a colon; [n] is the name of [nm]. *)
Definition named (nm n : bytes) : Prop :=
  (nm = n /\ ~ In ":"%byte n) \/ exists x, nm = n ++ ":"%byte :: x /\ ~ In ":"%byte x.
(** A line about parameter [n] with value [v]; a value of one character is not followed by
    blanks. *)
Definition says (l n v : bytes) : Prop :=
  exists nm t, written l nm v t /\ named nm n /\ (2 <= zlen v \/ t = []).
(** The entries of the lines of a file, in order *)
Inductive entries : list bytes -> list (bytes * bytes) -> Prop :=
| entries_nil : entries [] []
| entries_comment l ls es : comment l -> entries ls es -> entries (l :: ls) es
| entries_says l n v ls es : says l n v -> entries ls es -> entries (l :: ls) ((n, v) :: es).

(** The last entry of [b] about one of the parameters [ps] *)
Definition latest (b : list (bytes * bytes)) (ps : list bytes) (p v : bytes) : Prop :=
  exists b1 b2, b = b1 ++ (p, v) :: b2 /\ In p ps /\ forall q u, In (q, u) b2 -> ~ In q ps.
Definition absent (b : list (bytes * bytes)) (ps : list bytes) : Prop := forall q u, In (q, u) b -> ~ In q ps.
(** [x] is what the last entry about [ps] says ([R]), or the default [d] *)
Definition decided {X} (b : list (bytes * bytes)) (ps : list bytes) (R : bytes -> bytes -> X -> Prop) (d x : X) : Prop :=
  (forall p v, latest b ps p v -> R p v x) /\ (absent b ps -> x = d).

(** ** A file as stanzas *)
Definition include_params : list bytes := [ $ "%include"; $ "%include_folder"; $ "%include_keys" ].
(** A stanza: the value of its SOURCE line and the entries up to the next SOURCE line *)
Definition block : Type := bytes * list (bytes * bytes).
Definition flatten (bs : list block) : list (bytes * bytes) := concat (map (fun b => ($ "SOURCE", fst b) :: snd b) bs).

(** ** The parameters *)
Definition string_table : list (bytes * sfield) :=
  [ ($ "DESTINATION", s_destination); ($ "OPEN_PORTS", s_open_ports); ($ "RESTRICT_PORTS", s_restrict_ports);
    ($ "CMD_SUDO_EXEC_USER", s_sudo_user); ($ "CMD_SUDO_EXEC_GROUP", s_sudo_group);
    ($ "CMD_EXEC_USER", s_user); ($ "CMD_EXEC_GROUP", s_group);
    ($ "CMD_CYCLE_OPEN", s_cycle_open); ($ "CMD_CYCLE_CLOSE", s_cycle_close);
    ($ "REQUIRE_USERNAME", s_require_username); ($ "GPG_EXE", s_gpg_exe); ($ "GPG_DECRYPT_ID", s_gpg_decrypt_id);
    ($ "GPG_REMOTE_ID", s_gpg_remote_id); ($ "GPG_FINGERPRINT_ID", s_gpg_remote_fpr) ].
Definition flag_table : list (list bytes * ifield) :=
  [ ([$ "ENABLE_CMD_EXEC"], i_cmd); ([$ "ENABLE_CMD_SUDO_EXEC"], i_sudo);
    ([$ "REQUIRE_SOURCE_ADDRESS"; $ "REQUIRE_SOURCE"], i_require_source);
    ([$ "GPG_DISABLE_SIG"], i_disable_sig); ([$ "GPG_IGNORE_SIG_VERIFY_ERROR"], i_ignore_sig_error);
    ([$ "GPG_ALLOW_NO_PW"], i_allow_no_pw); ([$ "FORCE_MASQUERADE"], i_masquerade);
    ([$ "DISABLE_DNAT"], i_disable_dnat); ([$ "FORWARD_ALL"], i_forward_all) ].
(** A flag is set by a value that begins with Y or y. *)
Definition flag (v : bytes) (x : Z) : Prop :=
  (In (hd x00 v) ["Y"%byte; "y"%byte] /\ x = 1) \/ (~ In (hd x00 v) ["Y"%byte; "y"%byte] /\ x = 0).
(** A number within limits; zero stands for the default. *)
Definition number (hi d : Z) (v : bytes) (x : Z) : Prop :=
  forall n, integer_text v n -> -2147483648 <= n < 2147483648 -> 0 <= n <= hi /\ x = (if n =? 0 then d else n).
(** A key is the text itself or given in base64. *)
Definition key_text (b64 : bytes) (p v : bytes) (x : option bytes) : Prop :=
  (p <> b64 -> x = Some v) /\ (p = b64 -> forall k, v = rfc4648 k -> x = Some k).
(** A name, in any case, from a table *)
Definition lower (c : byte) : byte := if ((65 <=? bv c) && (bv c <=? 90))%bool then zb (bv c + 32) else c.
Definition one_of (l : list (bytes * Z)) (v : bytes) (x : Z) : Prop :=
  exists n, In (n, x) l /\ map lower v = map lower n.
Definition digests : list (bytes * Z) :=
  [ ($ "md5", 1); ($ "sha1", 2); ($ "sha256", 3); ($ "sha384", 4); ($ "sha512", 5); ($ "sha3_256", 6); ($ "sha3_512", 7) ].
Definition modes : list (bytes * Z) :=
  [ ($ "ECB", 1); ($ "CBC", 2); ($ "CFB", 3); ($ "OFB", 5); ($ "CTR", 6); ($ "Asymmetric", 7); ($ "legacy", 8) ].

(** Stanza [a] is what its SOURCE line and its entries [b] say. *)
Definition stanza_says (src : bytes) (b : list (bytes * bytes)) (a : acc) : Prop :=
  strs a s_source = Some src /\
  (forall p f, In (p, f) string_table -> decided b [p] (fun _ v x => x = Some v) None (strs a f)) /\
  (forall ps f, In (ps, f) flag_table -> decided b ps (fun _ v x => flag v x) 0 (ints a f)) /\
  decided b [$ "FW_ACCESS_TIMEOUT"] (fun _ v x => number 8388608 30 v x) 30 (ints a i_fw_timeout) /\
  decided b [$ "MAX_FW_TIMEOUT"] (fun _ v x => number 8388608 300 v x) 300 (ints a i_max_timeout) /\
  decided b [$ "KEY"; $ "KEY_BASE64"] (key_text ($ "KEY_BASE64")) None (strs a s_key) /\
  decided b [$ "HMAC_KEY"; $ "HMAC_KEY_BASE64"] (key_text ($ "HMAC_KEY_BASE64")) None (strs a s_hmac_key) /\
  decided b [$ "ENCRYPTION_MODE"] (fun _ v x => one_of modes v x) 2 (ints a i_mode) /\
  decided b [$ "HMAC_DIGEST_TYPE"] (fun _ v x => one_of digests v x)
    (match strs a s_hmac_key with Some k => if 0 <? zlen k then 3 else 0 | None => 0 end) (ints a i_hmac_type).

(** ** The lists of a stanza *)
(** [ok] holds exactly of the addresses the text covers; the odd mask 0.0.0.32 is set aside
    (see C25). *)
Definition addresses (o : option bytes) (ok : Z -> bool) : Prop :=
  forall s items Ps, o = Some s -> s <> [] -> S_access.listed s items ->
    Forall2 S_access.net_entry items Ps -> Forall (fun it => ~ S_access.odd_mask it) items ->
    forall x, S_access.addr32 x -> (ok x = true <-> Exists (fun P => P x) Ps).
(** The pairs of protocol and port the text lists, each once per item, in order; numbers beyond
    the range of an int are set aside (see C38). *)
Definition ports (o : option bytes) (l : list (Z * Z)) : Prop :=
  match o with
  | Some (c :: s) => S_access.small_numbers (c :: s) ->
      exists items, S_access.listed (c :: s) items /\
        Forall2 (fun it e => S_access.port_entry it (fst e) (snd e)) items l
  | _ => l = []
  end.
Definition names (o : option bytes) (l : list bytes) : Prop :=
  match o with Some (c :: s) => S_access.listed (c :: s) l | _ => l = [] end.
Definition lists_say (a : acc) : Prop :=
  addresses (strs a s_source) (M_access.compare_addr_list (l_source a)) /\
  addresses (strs a s_destination) (M_access.compare_addr_list (l_dest a)) /\
  ports (strs a s_open_ports) (l_open a) /\ ports (strs a s_restrict_ports) (l_restrict a) /\
  names (strs a s_gpg_remote_id) (l_ids a) /\ names (strs a s_gpg_remote_fpr) (l_fprs a).

(** ** A stanza that can be used *)
(** The key the server decrypts with: in legacy mode its first 16 bytes *)
Definition enc_key (a : acc) : option bytes :=
  match strs a s_key with
  | Some k => Some (if (ints a i_mode =? 8)%Z then ztake 16 k else k)
  | None => None
  end.
Definition complete (a : acc) : Prop :=
  (* a key to decrypt with *)
  ((exists k, strs a s_key = Some k /\ k <> [] /\ ints a i_use_rijndael = 1) \/
   (exists p, strs a s_gpg_decrypt_pw = Some p /\ ints a i_use_gpg = 1 /\ (p <> [] \/ ints a i_allow_no_pw = 1))) /\
  (* the key for the HMAC is another one *)
  (forall k, enc_key a = Some k -> k <> [] -> strs a s_hmac_key <> Some k) /\
  (* source NAT needs destination NAT *)
  (ints a i_snat = 1 \/ ints a i_masquerade = 1 -> ints a i_nat = 1) /\
  (* both commands of a command cycle, and the time after which it is closed *)
  (strs a s_cycle_open = None <-> strs a s_cycle_close = None) /\
  (strs a s_cycle_open <> None -> ints a i_do_close <> 0 -> 1 <= ints a i_timer) /\
  (* defaults *)
  1 <= ints a i_fw_timeout /\ 1 <= ints a i_max_timeout /\ ints a i_mode <> 0 /\
  (* signatures are checked against something, unless disabled *)
  (strs a s_gpg_decrypt_pw <> None -> ints a i_disable_sig = 0 ->
     ints a i_require_sig = 1 /\ (strs a s_gpg_remote_id <> None \/ strs a s_gpg_remote_fpr <> None)).

(** ** Texts that do not occur *)
Definition occurs (p s : bytes) : Prop := exists a b, s = a ++ p ++ b.
Definition never_written (y : system) (p : bytes) : Prop :=
  forall name t, y_file y name = Some t -> ~ occurs p t.

(** ** Users, expiry, NAT *)
(** The parameters that name an account *)
Definition lookups : list bytes := [ $ "CMD_SUDO_EXEC_USER"; $ "CMD_SUDO_EXEC_GROUP"; $ "CMD_EXEC_USER"; $ "CMD_EXEC_GROUP" ].
(** MM/DD/YYYY *)
Definition date_text (v : bytes) (m d yr : Z) : Prop :=
  exists a b c, v = a ++ "/"%byte :: b ++ "/"%byte :: c /\
    zlen a = 2 /\ zlen b = 2 /\ zlen c = 4 /\ all_digits a /\ all_digits b /\ all_digits c /\
    m = decimal a /\ d = decimal b /\ yr = decimal c.
(** The moment a date stands for, by the clock of the system (months from 0, years from 1900),
    or a number of seconds *)
Definition expiry (y : system) (p v : bytes) (x : Z) : Prop :=
  (p = $ "ACCESS_EXPIRE" -> forall m d yr, date_text v m d yr -> 1 <= m -> 1900 < yr -> x = y_mktime y (m - 1) d (yr - 1900)) /\
  (p = $ "ACCESS_EXPIRE_EPOCH" -> all_digits v -> v <> [] -> decimal v < 9223372036854775808 -> x = decimal v).
(** An address and a port *)
Definition nat_text (v ip : bytes) (port : Z) : Prop :=
  exists sp ds, v = ip ++ sp ++ ds /\ (exists a b c d, ipv4_text ip a b c d) /\ zlen ip <= 15 /\
    sp <> [] /\ Forall blank sp /\ 1 <= zlen ds <= 5 /\ all_digits ds /\ port = decimal ds.
