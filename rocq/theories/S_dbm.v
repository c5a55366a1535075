(** What the digest data base is for. *)
From Verif Require Import Bytes M_util M_access M_codec M_replay M_cycle M_incoming S_replay S_incoming M_dbm.
From Coq Require Import Init.Byte List ZArith Bool.
Import ListNotations.
Open Scope Z_scope.

(** The entry of a digest in the data base. *)
Definition filed (b : base) (d : bytes) (e : entry) : Prop := lookup b d = Some e.
Definition unfiled (b : base) (d : bytes) : Prop := ~ exists e, In (d, e) b.
(** The data base works: it can be opened, read and written. *)
Definition works (ft : fate) : Prop := ft_open ft = true /\ ft_read ft = true /\ ft_store ft = true.

(** The cache in memory and the data base know the same digests. *)
Definition same_digests (c : cache) (b : base) : Prop :=
  cache_ok c /\ forall d, digest43 d -> (remembered c d <-> exists e, filed b d e).
(** No entry has counted as many replays as an int can hold. *)
Definition countable (b : base) : Prop := forall d e, filed b d e -> en_count e < 2147483647.

(** Histories: a packet arrives, and the calls to the data base have their fate; the daemon is
    stopped or killed, and started with a new access file. *)
Inductive db_event :=
| DbArrives (fts : Z -> fate) (now : Z) (p : packet)
| DbRestarts (acc : list stanza).
Inductive db_history (H : hashes) (G : gpg) (cf : conf) : dstate -> list db_event -> dstate -> Prop :=
| dh_end st : db_history H G cf st [] st
| dh_arrives st fts now p effs st1 l st2 : incoming_spa_db H G cf fts now p st = Ok (effs, st1) -> db_history H G cf st1 l st2 ->
    db_history H G cf st (DbArrives fts now p :: l) st2
| dh_restarts st acc l st2 : db_history H G cf (mkDb acc (db_base st) []) l st2 -> db_history H G cf st (DbRestarts acc :: l) st2.

(** An entry for one more replay, at time [t]. *)
Definition replayed (t : Z) (e e' : entry) : Prop :=
  en_src e' = en_src e /\ en_dst e' = en_dst e /\ en_sport e' = en_sport e /\ en_dport e' = en_dport e /\
  en_proto e' = en_proto e /\ en_created e' = en_created e /\
  en_count e' = en_count e + 1 /\ en_last e' = t /\ en_first e' = (if en_count e =? 0 then t else en_first e).
(** The entry of a packet that is seen for the first time, at time [t]. *)
Definition first_seen (i : pkt_info) (t : Z) (e : entry) : Prop :=
  en_src e = p_src i /\ en_dst e = p_dst i /\ en_sport e = p_sport i mod 65536 /\ en_dport e = p_dport i mod 65536 /\
  en_proto e = p_proto i mod 256 /\ en_created e = t /\ en_first e = 0 /\ en_last e = 0 /\ en_count e = 0.
