(** C94: the digest data base, the other form of the replay cache. *)
From Verif Require Import Bytes P_bytes M_util M_message M_codec M_cipher M_ctx M_access M_replay M_cycle M_incoming S_base64 S_codec S_access S_replay S_incoming
  T_codec T_ctx T_incoming P_incoming7 P_incoming8 M_dbm S_dbm P_dbm.
From Coq Require Import Init.Byte List ZArith Bool Lia.
Import ListNotations.
Open Scope Z_scope.

Definition fine : fate := mkFate true true true.
Lemma fine_works : works fine.
Proof. repeat split. Qed.
Definition db_start (l : list stanza) : dstate := mkDb l [] [].
Definition db_effects (r : outcome (list effect * dstate)) : option (list effect) := match r with Ok (e, _) => Some e | Fault => None end.
Definition db_after (r : outcome (list effect * dstate)) : dstate := match r with Ok (_, s) => s | Fault => db_start [] end.
Definition db_run (fts : Z -> fate) (now : Z) (data : bytes) (st : dstate) := incoming_spa_db toy nogpg cf0 fts now (pkt data) st.
(** The daemon after the first packet. *)
Definition db_one : dstate := db_after (db_run (fun _ => fine) 1700000100 packet1 (db_start [a0])).

(** ** With a data base that works, the daemon does what it does with the file *)
(** From states with the same stanzas and command cycles whose caches know the same digests,
    a packet has the same effects and leaves such states. *)
Theorem C94_same_as_file : forall H G cf fts en p st sd, hashes_ok H -> e_writable en = true -> (forall k, works (fts k)) ->
  db_acc sd = st_acc st -> db_cycles sd = st_cycles st -> same_digests (fst (st_replay st)) (db_base sd) -> countable (db_base sd) ->
  match incoming_spa H G cf en p st, incoming_spa_db H G cf fts (e_now en) p sd with
  | Ok (e1, s1), Ok (e2, s2) => e1 = e2 /\ db_acc s2 = st_acc s1 /\ db_cycles s2 = st_cycles s1 /\ same_digests (fst (st_replay s1)) (db_base s2)
  | Fault, Fault => True
  | _, _ => False
  end.
Proof. exact incoming_same. Qed.
Print Assumptions C94_same_as_file.
Example C94_same_ex : (forall k : Z, works ((fun _ => fine) k)) /\ same_digests (fst (st_replay (start [a0]))) (db_base (db_start [a0])) /\ countable (db_base (db_start [a0])) /\
  db_effects (db_run (fun _ => fine) 1700000100 packet1 (db_start [a0])) = Some [Grant 1 grant1] /\
  db_effects (db_run (fun _ => fine) 1700000101 packet1 db_one) = Some [].
Proof.
  split; [intro; apply fine_works|]. split.
  { split; [constructor|]. intros d _. split; [intros (c & [] & _)|intros (e & Q); discriminate]. }
  split; [intros d e Q; discriminate|]. split; vm_compute; reflexivity.
Qed.

(** ** No packet is acted upon twice *)
(** Provided the data base works when the packet is acted upon, and can be read when the same
    data come again.  In between anything may happen: packets, failing calls, restarts. *)
Theorem C94_no_replay_partial : forall H G cf fts now p effs st1 st2 after st3 fts' now' p' effs' st4 data,
  hashes_ok H -> cf_test cf = false -> on (cf_digest_persistence cf) -> packet_ok p -> packet_ok p' ->
  (forall k, 1 <= k -> works (fts k)) -> incoming_spa_db H G cf fts now p st1 = Ok (effs, st2) -> effs <> [] -> carries cf p data ->
  Forall (fun x => match x with DbArrives _ _ q => packet_ok q | DbRestarts _ => True end) after -> db_history H G cf st2 after st3 ->
  ft_read (fts' 0) = true -> incoming_spa_db H G cf fts' now' p' st3 = Ok (effs', st4) -> carries cf p' data ->
  effs' = [] /\ db_acc st4 = db_acc st3 /\ db_cycles st4 = db_cycles st3.
Proof.
  intros H G cf fts now p effs st1 st2 after st3 fts' now' p' effs' st4 data HO NT ON PO PO' WK E NE CA F HI R E' CA'.
  destruct (incoming_db_acts _ _ _ _ _ _ _ _ _ _ HO PO NT ON WK E NE CA) as [L EB].
  eapply incoming_db_known; eauto. eapply history_stays; eauto. rewrite EB, lookup_app, L. cbn [lookup]. rewrite bseq_refl. discriminate.
Qed.
Print Assumptions C94_no_replay_partial.
Example C94_no_replay_ex :
  db_effects (db_run (fun _ => fine) 1700000100 packet1 (db_start [a0])) = Some [Grant 1 grant1] /\
  db_history toy nogpg cf0 db_one [DbRestarts [a0]; DbArrives (fun _ => mkFate true true false) 1700000102 (pkt packet1)] db_one /\
  db_effects (db_run (fun _ => fine) 1700000103 packet1 db_one) = Some [].
Proof.
  split; [vm_compute; reflexivity|]. split; [|vm_compute; reflexivity].
  apply dh_restarts. apply dh_arrives with (effs := []) (st1 := db_one); [vm_compute; reflexivity|]. apply dh_end.
Qed.
(** The program takes a store that fails for one that went well, so the same packet is acted
    upon again. *)
Theorem C94_store_refuted : exists ft st1 st2, ft_open ft = true /\ ft_read ft = true /\ ft_store ft = false /\
  db_run (fun _ => ft) 1700000100 packet1 (db_start [a0]) = Ok ([Grant 1 grant1], st1) /\
  db_run (fun _ => fine) 1700000101 packet1 st1 = Ok ([Grant 1 grant1], st2).
Proof.
  exists (mkFate true true false), (db_after (db_run (fun _ => mkFate true true false) 1700000100 packet1 (db_start [a0]))),
    (db_after (db_run (fun _ => fine) 1700000101 packet1 (db_after (db_run (fun _ => mkFate true true false) 1700000100 packet1 (db_start [a0]))))).
  split; [reflexivity|]. split; [reflexivity|]. split; [reflexivity|]. split; vm_compute; reflexivity.
Qed.
Print Assumptions C94_store_refuted.
(** An entry that cannot be read counts as absent, so a packet is acted upon again. *)
Theorem C94_read_refuted : exists ft st1 st2, ft_open ft = true /\ ft_read ft = false /\ ft_store ft = true /\
  db_run (fun _ => fine) 1700000100 packet1 (db_start [a0]) = Ok ([Grant 1 grant1], st1) /\
  db_run (fun _ => ft) 1700000101 packet1 st1 = Ok ([Grant 1 grant1], st2).
Proof.
  exists (mkFate true false true), (db_after (db_run (fun _ => fine) 1700000100 packet1 (db_start [a0]))),
    (db_after (db_run (fun _ => mkFate true false true) 1700000101 packet1 (db_after (db_run (fun _ => fine) 1700000100 packet1 (db_start [a0]))))).
  split; [reflexivity|]. split; [reflexivity|]. split; [reflexivity|]. split; vm_compute; reflexivity.
Qed.
Print Assumptions C94_read_refuted.
(** If the data base cannot be opened when the daemon starts, the daemon runs on without
    remembering digests, and a packet is acted upon as often as it comes. *)
Theorem C94_start_refuted : exists ft b cf st1 st2, ft_open ft = false /\ cf = begin_conf ft b cf0 /\
  incoming_spa_db toy nogpg cf (fun _ => fine) 1700000100 (pkt packet1) (mkDb [a0] b []) = Ok ([Grant 1 grant1], st1) /\
  incoming_spa_db toy nogpg cf (fun _ => fine) 1700000101 (pkt packet1) st1 = Ok ([Grant 1 grant1], st2).
Proof.
  set (cf := begin_conf (mkFate false true true) [] cf0).
  exists (mkFate false true true), [], cf, (db_after (incoming_spa_db toy nogpg cf (fun _ => fine) 1700000100 (pkt packet1) (db_start [a0]))),
    (db_after (incoming_spa_db toy nogpg cf (fun _ => fine) 1700000101 (pkt packet1) (db_after (incoming_spa_db toy nogpg cf (fun _ => fine) 1700000100 (pkt packet1) (db_start [a0]))))).
  split; [reflexivity|]. split; [reflexivity|]. split; vm_compute; reflexivity.
Qed.
Print Assumptions C94_start_refuted.
(** It does remember them if the data base can be opened then. *)
Theorem C94_start_partial : forall ft b cf, ft_open ft = true -> begin_conf ft b cf = cf.
Proof. intros ft b cf O. unfold begin_conf, db_cache_init. rewrite O. destruct (yes _); reflexivity. Qed.
Print Assumptions C94_start_partial.

(** ** A data base that cannot be opened *)
(** While the daemon runs, nothing is done if the data base cannot be opened to look the digest
    up, or at any stanza. *)
Theorem C94_unopened : forall H G cf fts now p st effs st', cf_test cf = false -> on (cf_digest_persistence cf) ->
  (ft_open (fts 0) = false \/ forall k, 1 <= k -> ft_open (fts k) = false) ->
  incoming_spa_db H G cf fts now p st = Ok (effs, st') -> effs = [].
Proof. exact incoming_db_unopened. Qed.
Print Assumptions C94_unopened.
Example C94_unopened_ex :
  db_effects (db_run (fun k => mkFate (1 <=? k) true true) 1700000100 packet1 (db_start [a0])) = Some [] /\
  db_effects (db_run (fun k => mkFate (k =? 0) true true) 1700000100 packet1 (db_start [a0])) = Some [].
Proof. split; vm_compute; reflexivity. Qed.

(** ** What the entries say *)
(** A packet that is acted upon has no entry before, and its own, for the first time, after. *)
Theorem C94_recorded : forall H G cf fts now p st effs st' data,
  hashes_ok H -> packet_ok p -> cf_test cf = false -> on (cf_digest_persistence cf) -> (forall k, 1 <= k -> works (fts k)) ->
  incoming_spa_db H G cf fts now p st = Ok (effs, st') -> effs <> [] -> carries cf p data ->
  unfiled (db_base st) (packet_digest H data) /\
  exists e, filed (db_base st') (packet_digest H data) e /\ first_seen (k_info p) now e.
Proof.
  intros H G cf fts now p st effs st' data HO PO NT ON WK E NE CA.
  destruct (incoming_db_acts _ _ _ _ _ _ _ _ _ _ HO PO NT ON WK E NE CA) as [L EB]. split; [apply lookup_none; auto|].
  exists (new_entry (k_info p) now). unfold filed. rewrite EB, lookup_app, L. cbn [lookup]. rewrite bseq_refl. split; [reflexivity|]. repeat split.
Qed.
Print Assumptions C94_recorded.
(** A packet whose data were seen before has no effect but that its entry counts one more
    replay, keeps the rest, and has the time of the first and of the last replay. *)
Theorem C94_counted : forall H G cf fts now p st effs st' data e a, hashes_ok H -> packet_ok p -> on (cf_digest_persistence cf) -> works (fts 0) ->
  carries cf p data -> data_ok data -> zlen data < 1500 -> unprefixed p -> agent_ok cf p -> In a (db_acc st) -> in_nets (a_source a) (p_src (k_info p)) ->
  filed (db_base st) (packet_digest H data) e ->
  incoming_spa_db H G cf fts now p st = Ok (effs, st') ->
  effs = [] /\ db_acc st' = db_acc st /\ db_cycles st' = db_cycles st /\ exists e', filed (db_base st') (packet_digest H data) e' /\ replayed now e e'.
Proof. exact incoming_db_counted. Qed.
Print Assumptions C94_counted.
Example C94_counted_ex :
  lookup (db_base db_one) (packet_digest toy packet1) = Some (mkEntry 167837955 3232235777 40000 62201 17 1700000100 0 0 0) /\
  lookup (db_base (db_after (db_run (fun _ => fine) 1700000105 packet1 (db_after (db_run (fun _ => fine) 1700000103 packet1 db_one))))) (packet_digest toy packet1)
    = Some (mkEntry 167837955 3232235777 40000 62201 17 1700000100 1700000103 1700000105 2).
Proof. split; vm_compute; reflexivity. Qed.
(** No packet changes the entry of another digest than its own, or removes an entry. *)
Theorem C94_others : forall H G cf fts now p st effs st', hashes_ok H -> packet_ok p -> incoming_spa_db H G cf fts now p st = Ok (effs, st') ->
  (forall d, (forall data, carries cf p data -> d <> packet_digest H data) -> forall e, filed (db_base st') d e <-> filed (db_base st) d e) /\
  (forall d e, filed (db_base st) d e -> exists e', filed (db_base st') d e').
Proof.
  intros H G cf fts now p st effs st' HO PO E. split.
  - intros d N e. unfold filed. rewrite (incoming_db_others _ _ _ _ _ _ _ _ _ d HO PO E N). reflexivity.
  - intros d e F. destruct (lookup (db_base st') d) as [e'|] eqn:L; [exists e'; auto|]. exfalso. revert L. eapply known_stays; eauto. unfold filed in F. congruence.
Qed.
Print Assumptions C94_others.
Example C94_others_ex :
  lookup (db_base (db_after (db_run (fun _ => fine) 1700000105 packet2 db_one))) (packet_digest toy packet1) = Some (mkEntry 167837955 3232235777 40000 62201 17 1700000100 0 0 0) /\
  packet_digest toy packet2 <> packet_digest toy packet1.
Proof. split; [vm_compute; reflexivity|vm_compute; congruence]. Qed.
