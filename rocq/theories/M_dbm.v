(** Model of the replay digest cache in a data base, server/replay_cache.c built with gdbm and
    without USE_FILE_CACHE, and of the processing of a packet that uses it.
    Simplified: the data base is a list of keys and entries.  What becomes of the calls to gdbm
    is given by a [fate] for each time the program opens it.  All calls for one packet see the
    same clock.  A data base whose entries were written by another program is not modelled, nor
    is what gdbm leaves on the disk when the program is killed inside a call. *)
From Verif Require Import Bytes M_util M_message M_base64 M_codec M_cipher M_ctx M_access M_replay M_cycle M_incoming.
From Coq Require Import Init.Byte List ZArith Bool.
Import ListNotations.
Open Scope Z_scope.

(** digest_cache_info_t, replay_cache.h:35-48, without the digest, which is not set here. *)
Record entry := mkEntry {
  en_src : Z; en_dst : Z; en_sport : Z; en_dport : Z; en_proto : Z; en_created : Z;
  en_first : Z; en_last : Z; en_count : Z }.
Definition base := list (bytes * entry).

(** gdbm_open succeeds; gdbm_fetch can read; gdbm_store succeeds, if the key allows it. *)
Record fate := mkFate { ft_open : bool; ft_read : bool; ft_store : bool }.

(** gdbm_fetch: the entry of the key. *)
Fixpoint lookup (b : base) (d : bytes) : option entry :=
  match b with
  | [] => None
  | (k, e) :: r => if bseq k d then Some e else lookup r d
  end.
(** A fetch that cannot read gives NULL, as if there was no entry. *)
Definition fetch (ft : fate) (b : base) (d : bytes) : option entry :=
  if ft_read ft then lookup b d else None.
(** gdbm_store with GDBM_REPLACE, of a key that is there. *)
Fixpoint replace (b : base) (d : bytes) (e : entry) : base :=
  match b with
  | [] => []
  | (k, x) :: r => if bseq k d then (k, e) :: r else (k, x) :: replace r d e
  end.
(** gdbm_store with GDBM_INSERT, which refuses a key that is there. *)
Definition insert (ft : fate) (b : base) (d : bytes) (e : entry) : base :=
  if ft_store ft then match lookup b d with None => b ++ [(d, e)] | Some _ => b end else b.

(** replay_warning, replay_cache.c:142-207: what it does to the entry.  replay_count is an int:
    its overflow is undefined. *)
Definition mark (now : Z) (e : entry) : outcome entry :=
  if en_count e =? 2147483647 then Fault
  else Ok (mkEntry (en_src e) (en_dst e) (en_sport e) (en_dport e) (en_proto e) (en_created e)
             (if en_count e + 1 =? 1 then now else en_first e) now (en_count e + 1)).

(** is_replay_dbm_cache, replay_cache.c:529-590.  True: SPA_MSG_SUCCESS, not a replay. *)
Definition is_replay_db (ft : fate) (now : Z) (digest : bytes) (b : base) : outcome (bool * base) :=
  if negb (ft_open ft) then Ok (false, b)
  else match fetch ft b digest with
       | None => Ok (true, b)
       | Some e =>
           match mark now e with
           | Fault => Fault
           | Ok e' => Ok (false, if ft_store ft then replace b digest e' else b)
           end
       end.

(** The entry that add_replay_dbm_cache builds, replay_cache.c:641-647 *)
Definition new_entry (p : pkt_info) (now : Z) : entry :=
  mkEntry (p_src p) (p_dst p) (u16 (p_sport p)) (u16 (p_dport p)) (p_proto p mod 256) now 0 0 0.
(** add_replay_dbm_cache, replay_cache.c:592-672.  True: SPA_MSG_SUCCESS.  The result of a store
    that fails is overwritten at line 661. *)
Definition add_replay_db (ft : fate) (digest : bytes) (p : pkt_info) (now : Z) (b : base) : bool * base :=
  if negb (ft_open ft) then (false, b)
  else match fetch ft b digest with
       | None => (true, insert ft b digest (new_entry p now))
       | Some _ => (false, b)
       end.

(** replay_db_cache_init with gdbm, replay_cache.c:370-428: the number of entries, None for -1.
    Simplified: every key can be read. *)
Definition db_cache_init (ft : fate) (b : base) : option Z :=
  if ft_open ft then Some (zlen b) else None.
(** fwknopd.c:479-495: if the cache cannot be opened at the start, digests are not remembered. *)
Definition begin_conf (ft : fate) (b : base) (cf : conf) : conf :=
  if yes (cf_digest_persistence cf) then
    match db_cache_init ft b with
    | Some _ => cf
    | None => mkConf ($ "N") (cf_http cf) (cf_any_user_agent cf) (cf_xff cf) (cf_aging cf) (cf_max_age cf)
                (cf_forwarding cf) (cf_local_nat cf) (cf_sudo_exe cf) (cf_test cf)
    end
  else cf.

(** add_replay_cache, incoming_spa.c:866-886, at stanza [k]: go on, added_replay_digest. *)
Definition note_db (cf : conf) (fts : Z -> fate) (p : pkt_info) (now : Z) (raw : option bytes) (k : Z) (added : bool) (b : base)
  : bool * bool * base :=
  match raw with
  | Some dg => if negb (cf_test cf) && negb added
               then let '(r, b') := add_replay_db (fts k) dg p now b in (r, r, b')
               else (true, added, b)
  | None => (true, added, b)
  end.

(** The loop over the stanzas, incoming_spa.c:966-1240, as in M_incoming but for the cache.
    [fts k]: the fate of the calls made at stanza [k]. *)
Fixpoint stanza_loop_db (H : hashes) (G : gpg) (cf : conf) (fts : Z -> fate) (now : Z) (p : pkt_info) (data fwd : bytes) (raw : option bytes)
  (l : list stanza) (k : Z) (added : bool) (b : base) (cy : list cycle)
  : outcome (list effect * list stanza * base * list cycle) :=
  match l with
  | [] => Ok ([], [], b, cy)
  | a :: r =>
      let next (a' : stanza) (added : bool) b cy eff :=
        match stanza_loop_db H G cf fts now p data fwd raw r (k + 1) added b cy with
        | Fault => Fault
        | Ok (eff', r', b', cy') => Ok (eff ++ eff', a' :: r', b', cy')
        end in
      if negb (src_dst_check a p) then next a added b cy []
      else
        let '(live, a) := check_stanza_expiration now a in
        if negb live then next a added b cy []
        else match decrypt_packet H G a data with
        | Fault => Fault
        | Ok None => next a added b cy []
        | Ok (Some (c, sg)) =>
            let '(okd, added, b) := note_db cf fts p now raw k added b in
            if negb okd then next a added b cy []
            else match handle_gpg_sigs a (encryption_type (Some data)) c sg with
            | Fault => Fault
            | Ok false => next a added b cy []
            | Ok true =>
                match checks cf now p fwd a c with
                | Fault => Fault
                | Ok Refuse => next a added b cy []
                | Ok Abort => Ok ([], a :: r, b, cy)
                | Ok (Pass d) =>
                    match act cf now a k d cy with
                    | Fault => Fault
                    | Ok (Break, eff, cy) => Ok (eff, a :: r, b, cy)
                    | Ok (Next, eff, cy) => next a added b cy eff
                    end
                end
            end
        end
  end.

Record dstate := mkDb { db_acc : list stanza; db_base : base; db_cycles : list cycle }.

(** incoming_spa, incoming_spa.c:926-1247, with the data base.  [fts 0]: the fate of the calls
    made by is_replay. *)
Definition incoming_spa_db (H : hashes) (G : gpg) (cf : conf) (fts : Z -> fate) (now : Z) (p : packet) (st : dstate)
  : outcome (list effect * dstate) :=
  match preprocess cf p with
  | Fault => Fault
  | Ok None => Ok ([], st)
  | Ok (Some (data, fwd)) =>
      if negb (existsb (fun a => compare_addr_list (a_source a) (p_src (k_info p))) (db_acc st)) then Ok ([], st)
      else
        match (if yes (cf_digest_persistence cf) then
                 match get_raw_digest H data with
                 | Fault => Fault
                 | Ok None => Ok (None, db_base st)
                 | Ok (Some dg) =>
                     match is_replay_db (fts 0) now dg (db_base st) with
                     | Fault => Fault
                     | Ok (false, b) => Ok (None, b)
                     | Ok (true, b) => Ok (Some (Some dg), b)
                     end
                 end
               else Ok (Some None, db_base st)) with
        | Fault => Fault
        | Ok (None, b) => Ok ([], mkDb (db_acc st) b (db_cycles st))
        | Ok (Some raw, b) =>
            match stanza_loop_db H G cf fts now (k_info p) data fwd raw (db_acc st) 1 false b (db_cycles st) with
            | Fault => Fault
            | Ok (eff, acc', b', cy') => Ok (eff, mkDb acc' b' cy')
            end
        end
  end.
