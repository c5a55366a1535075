(** Property theorems: the processing of a received packet. *)
From Verif Require Import Bytes M_base64 S_base64 S_text S_codec S_cipher S_ctx S_access S_replay S_cycle M_util M_message M_codec M_cipher M_ctx M_access
  M_replay M_cycle M_incoming S_incoming P_bytes P_util P_access P_replay P_incoming P_incoming2 P_incoming3 P_incoming4 P_incoming5 P_incoming6 P_incoming7 P_incoming8 T_codec T_ctx.
From Coq Require Import Init.Byte List ZArith Bool Lia.
Import ListNotations.
Open Scope Z_scope.

(** ** Packets and stanzas used in the examples *)
Ltac ands := repeat match goal with |- _ /\ _ => split end.
Definition pkt (data : bytes) : packet := mkPacket (data ++ repeat x00 (1501 - length data)) (zlen data) (mkPkt 17 167837955 40000 3232235777 62201).
Lemma pkt_valid data : zlen data <= 1500 -> packet_ok (pkt data).
Proof.
  intro L. pose proof (zlen_nonneg data). constructor; cbn [k_buf k_len k_info pkt p_src p_dst]; try lia.
  - unfold zlen in *. rewrite app_length, repeat_length. lia.
  - replace (1501 - length data)%nat with (S (1500 - length data)) by (unfold zlen in L; lia). cbn [repeat].
    change (x00 :: repeat x00 (1500 - length data)) with ([x00] ++ repeat x00 (1500 - length data)). rewrite app_assoc.
    rewrite ztake_app by (rewrite zlen_app; reflexivity). apply in_or_app. right. left. reflexivity.
Qed.
Lemma pkt_payload data : payload (pkt data) = data.
Proof. unfold payload, pkt. cbn [k_len k_buf]. apply ztake_app. reflexivity. Qed.
Definition make (l : list call) (hk : option bytes) : bytes := pkt_of (play (l ++ [CFinal (Some ($ "pw")) hk ($ "saltsalt")])).
Definition d_cmd : bytes := Eval vm_compute in make [CSetType 0; CSetMsg (Some ($ "1.2.3.4,/bin/id")); CSetHmacType 3] (Some ($ "hmac key")).
Definition d_any : bytes := Eval vm_compute in make [CSetMsg (Some ($ "0.0.0.0,tcp/22")); CSetHmacType 3] (Some ($ "hmac key")).
Definition d_nomac : bytes := Eval vm_compute in make [CSetMsg (Some ($ "1.2.3.4,tcp/22"))] None.

Definition cf0 : conf := mkConf ($ "Y") ($ "Y") ($ "Y") ($ "Y") ($ "Y") 120 ($ "Y") ($ "Y") ($ "/usr/bin/sudo") false.
Definition cf_t : conf := mkConf ($ "Y") ($ "Y") ($ "Y") ($ "Y") ($ "Y") 120 ($ "Y") ($ "Y") ($ "/usr/bin/sudo") true.
Definition nat0 : nat_conf := mkNat false [] 0 false false false [] false.
(** A stanza with the HMAC key, user names for commands, a command cycle, ports and times. *)
Definition sample (hk : option bytes) (sudo : bool) (cmd_user cmd_group : option bytes) (cy : option cycle_conf) (restrict : list (Z * Z)) (expire fw max : Z) : stanza :=
  mkStanza [mknet 0 0] None expire false true (Some ($ "pw")) 2 hk 3 false false false false None None
    false None true sudo None None cmd_user cmd_group 1000 1000 cy [] restrict fw max nat0.
Definition a0 : stanza := sample (Some ($ "hmac key")) false None None None [] 0 30 300.
Definition a_cycled : stanza := sample (Some ($ "hmac key")) false None None (Some (mkCC ($ "open $IP") ($ "close $IP") true 10)) [(6, 22)] 0 30 300.
Definition nogpg : gpg := mkGpg (fun _ => false) (fun _ _ => None).
Definition en0 : env := mkEnv 1700000100 true.
Definition start (l : list stanza) : sstate := mkSt l (cache_init None) [].
Definition effects (r : outcome (list effect * sstate)) : option (list effect) := match r with Ok (e, _) => Some e | Fault => None end.
Definition after (r : outcome (list effect * sstate)) (st : sstate) : sstate := match r with Ok (_, s) => s | Fault => st end.
Definition run (l : list stanza) (cf : conf) (data : bytes) : outcome (list effect * sstate) := incoming_spa toy nogpg cf en0 (pkt data) (start l).
Lemma sample_ok l : Forall (fun a => exists hk sudo cu cg cy rs ex fw mx, a = sample hk sudo cu cg cy rs ex fw mx) l -> config_ok l.
Proof.
  intro F. eapply Forall_impl; [|exact F]. intros a (hk & sudo & cu & cg & cy & rs & ex & fw & mx & ->). split; [intros _; discriminate|constructor].
Qed.

(** ** C17 Every effect is authorized *)
(** Missing for the full property: the ports are not checked before a command cycle is
    opened, see below; and the age is the wrapped difference, see C23. *)
Theorem C17_authorized_partial : forall H G cf en p st effs st' e, hashes_ok H -> packet_ok p -> config_ok (st_acc st) ->
  incoming_spa H G cf en p st = Ok (effs, st') -> In e effs ->
  exists data fwd i a, carries cf p data /\ data_ok data /\ forwarded_read cf p fwd /\
    nth_error (st_acc st) i = Some a /\ lets H G cf (e_now en) p fwd data a (1 + Z.of_nat i) e.
Proof. exact authorized. Qed.
Print Assumptions C17_authorized_partial.
Definition grant1 : spa_data := M_cycle.mkSpa ($ "alice") 1700000000 ($ "3.0.0") 4 ($ "1.2.3.4,tcp/22") ($ "1.2.3.4") ($ "10.1.1.3") [] ($ "192.168.1.1")
  ($ "tcp/22") (Some ($ "192.168.1.2,22")) None 60 60 ($ "1.2.3.4").
Example C17_ex : hashes_ok toy /\ packet_ok (pkt packet1) /\ config_ok (st_acc (start [a0])) /\
  effects (run [a0] cf0 packet1) = Some [Grant 1 grant1] /\ effects (run [a0] cf0 (removelast packet1 ++ $ "x")) = Some [].
Proof.
  split; [exact toy_ok|]. split; [apply pkt_valid; vm_compute; discriminate|]. split; [apply sample_ok; constructor; [unfold a0; eauto 20|constructor]|].
  split; vm_compute; reflexivity.
Qed.
(** A command cycle runs for a port that its stanza restricts. *)
Theorem C17_cycle_ports_refuted : exists data a c st', In (6, 22) (a_restrict a) /\
  fko_new_with_data toy (Some data) (a_key a) (a_mode a) (a_hmac_key a) (a_hmac_type a) = Ok (FKO_SUCCESS, Live c) /\
  c_msg c = Some ($ "1.2.3.4,tcp/22") /\
  incoming_spa toy nogpg cf0 en0 (pkt data) (start [a]) = Ok ([CycleOpen 1 ($ "open 1.2.3.4")], st').
Proof.
  exists packet1, a_cycled.
  set (c := match fko_new_with_data toy (Some packet1) (Some ($ "pw")) 2 (Some ($ "hmac key")) 3 with Ok (_, Live c) => c | _ => empty_ctx end).
  exists c, (after (run [a_cycled] cf0 packet1) (start [])). split; [left; reflexivity|]. split; [vm_compute; reflexivity|]. split; vm_compute; reflexivity.
Qed.
Print Assumptions C17_cycle_ports_refuted.

(** ** C18 The first stanza that lets a packet act decides *)
(** For a packet that is well-formed and not known: what is done is what the first stanza
    that lets it act lets it do, and nothing if there is none.  Missing for the full
    property: command cycles whose close command cannot be built, see below; the digest file
    can be written (if not, nothing is done, C19_unrecorded). *)
Theorem C18_first_stanza_partial : forall H G cf en p st effs st' data, hashes_ok H -> packet_ok p -> config_ok (st_acc st) -> cache_ok (fst (st_replay st)) ->
  e_writable en = true -> processed H cf (fst (st_replay st)) p data -> (forall fwd, closable H G p fwd data (st_acc st)) ->
  incoming_spa H G cf en p st = Ok (effs, st') ->
  exists fwd, forwarded_read cf p fwd /\
  ((effs = [] /\ forall i a e, nth_error (st_acc st) i = Some a -> ~ lets H G cf (e_now en) p fwd data a (1 + Z.of_nat i) e) \/
   exists i a e, nth_error (st_acc st) i = Some a /\ effs = [e] /\ lets H G cf (e_now en) p fwd data a (1 + Z.of_nat i) e /\
     forall j a' e', (j < i)%nat -> nth_error (st_acc st) j = Some a' -> ~ lets H G cf (e_now en) p fwd data a' (1 + Z.of_nat j) e').
Proof. exact first_stanza. Qed.
Print Assumptions C18_first_stanza_partial.
(** Any packet: at most one effect. *)
Theorem C18_at_most_one_partial : forall H G cf en p st effs st', hashes_ok H -> packet_ok p -> config_ok (st_acc st) -> e_writable en = true ->
  (forall data fwd, carries cf p data -> closable H G p fwd data (st_acc st)) ->
  incoming_spa H G cf en p st = Ok (effs, st') -> effs = [] \/ exists e, effs = [e].
Proof. exact one_effect. Qed.
Print Assumptions C18_at_most_one_partial.
Lemma plain_carries data : (forall g r, data = g ++ r -> lower g <> $ "get /") -> forall cf, carries cf (pkt data) data.
Proof. intros N cf. right. rewrite pkt_payload. split; auto. intros (_ & g & r & E & L). rewrite pkt_payload in E. exact (N g r E L). Qed.
Lemma packet1_plain : forall g r, packet1 = g ++ r -> lower g <> $ "get /".
Proof.
  intros g r E L. rewrite lower_tolower in L. destruct g as [|c g]; [discriminate|]. injection L as L _. vm_compute in E. injection E as E _. subst c. discriminate L.
Qed.
Lemma b64_check data : forallb b64_class data = true -> Forall b64_or_eq data.
Proof. apply b64_forall. Qed.
Example C18_ex : cache_ok (fst (st_replay (start [a_cycled; a0]))) /\ config_ok (st_acc (start [a_cycled; a0])) /\ e_writable en0 = true /\
  processed toy cf0 (fst (st_replay (start [a_cycled; a0]))) (pkt packet1) packet1 /\
  effects (run [a_cycled; a0] cf0 packet1) = Some [CycleOpen 1 ($ "open 1.2.3.4")] /\
  effects (run [sample (Some ($ "hmac key")) false None None None [] 1700000050 30 300; sample (Some ($ "hmac key")) false None None None [(6, 22)] 0 30 300; a0] cf0 packet1) = Some [Grant 3 grant1].
Proof.
  split; [vm_compute; constructor|]. split; [apply sample_ok; constructor; [unfold a_cycled; eauto 20|constructor; [unfold a0; eauto 20|constructor]]|]. split; [reflexivity|].
  split; [|split; vm_compute; reflexivity].
  split; [apply plain_carries; exact packet1_plain|]. split. { split; [vm_compute; split; discriminate|]. apply b64_check. vm_compute. reflexivity. }
  split; [reflexivity|]. split; [split; [intros r E; rewrite pkt_payload in E; vm_compute in E; discriminate|intro L; vm_compute in L; discriminate]|].
  split. { intros (x & [Q|Q]); discriminate. } intros _ (c & [] & _).
Qed.
Example C18_ex2 : forall fwd data p, closable toy nogpg p fwd data [sample (Some ($ "hmac key")) false None None None [(6, 22)] 0 30 300; a0].
Proof. intros fwd data p a m d cc [<-|[<-|[]]] _ _ Q; discriminate Q. Qed.
(** If the open command of a cycle has run but the close command is too long to be built,
    the next stanzas are tried too. *)
Theorem C18_two_stanzas_refuted : exists data a1 a2 d st', run [a1; a2] cf0 data = Ok ([CycleOpen 1 ($ "open 1.2.3.4"); Grant 2 d], st').
Proof.
  exists packet1, (sample (Some ($ "hmac key")) false None None (Some (mkCC ($ "open $IP") (repeat "x"%byte 248 ++ $ "$IP ") true 10)) [] 0 30 300), a0, grant1.
  exists (after (run [sample (Some ($ "hmac key")) false None None (Some (mkCC ($ "open $IP") (repeat "x"%byte 248 ++ $ "$IP ") true 10)) [] 0 30 300; a0] cf0 packet1) (start [])).
  vm_compute. reflexivity.
Qed.
Print Assumptions C18_two_stanzas_refuted.

(** ** C19 No packet acts twice *)
(** The digest file exists or not when the daemon starts; any packets, clean restarts (also
    with other access files) and other access happen before the packet is acted upon; any
    packets, restarts and crashes happen after it.  Then a packet with the same data has no
    effect at all.  Missing for the full property: test mode (see below), crashes before the
    packet and a file that ends within a line (C21_torn_line_refuted). *)
Theorem C19_no_replay_partial : forall H G cf acc f before en p effs st1 st2 after st3 en' p' effs' st4 data,
  hashes_ok H -> cf_test cf = false -> on (cf_digest_persistence cf) -> ends_torn f = false ->
  Forall (fun x => happening_ok (fst x)) before -> forallb (fun x => negb (is_death (fst x))) before = true ->
  Forall (fun x => happening_ok (fst x)) after -> packet_ok p -> packet_ok p' ->
  history H G cf (mkSt acc (cache_init f) []) before st1 ->
  incoming_spa H G cf en p st1 = Ok (effs, st2) -> effs <> [] -> carries cf p data ->
  history H G cf st2 after st3 ->
  incoming_spa H G cf en' p' st3 = Ok (effs', st4) -> carries cf p' data -> effs' = [] /\ st4 = st3.
Proof. exact no_replay. Qed.
Print Assumptions C19_no_replay_partial.
Example C19_ex : cf_test cf0 = false /\ on (cf_digest_persistence cf0) /\ ends_torn None = false /\
  effects (run [a0] cf0 packet1) = Some [Grant 1 grant1] /\
  effects (incoming_spa toy nogpg cf0 en0 (pkt packet1) (after (run [a0] cf0 packet1) (start []))) = Some [] /\
  effects (incoming_spa toy nogpg cf0 en0 (pkt packet1) (mkSt [a0] (happen (st_replay (after (run [a0] cf0 packet1) (start []))) Restarted) [])) = Some [].
Proof. split; [reflexivity|]. split; [exists []; auto|]. split; [reflexivity|]. split; [|split]; vm_compute; reflexivity. Qed.
(** If the digest cannot be written to the file, nothing is done. *)
Theorem C19_unrecorded : forall H G cf en p st effs st', hashes_ok H -> packet_ok p -> cf_test cf = false -> on (cf_digest_persistence cf) ->
  e_writable en = false -> incoming_spa H G cf en p st = Ok (effs, st') -> effs = [].
Proof.
  intros H G cf en p st effs st' HO PO NT ON W E. destruct (incoming_replay _ _ _ _ _ _ _ _ HO PO NT ON E) as [[_ Q]|(data & _ & _ & [[Q _]|[Q _]])]; auto. congruence.
Qed.
Print Assumptions C19_unrecorded.
Example C19_ex2 : effects (incoming_spa toy nogpg cf0 (mkEnv 1700000100 false) (pkt packet1) (start [a0])) = Some [].
Proof. vm_compute. reflexivity. Qed.
(** In test mode digests are not recorded, but command cycles are opened. *)
Theorem C19_test_mode_refuted : exists data a st', run [a] cf_t data = Ok ([CycleOpen 1 ($ "open 1.2.3.4")], st') /\
  effects (incoming_spa toy nogpg cf_t en0 (pkt data) st') = Some [CycleOpen 1 ($ "open 1.2.3.4")].
Proof. exists packet1, a_cycled, (after (run [a_cycled] cf_t packet1) (start [])). split; vm_compute; reflexivity. Qed.
Print Assumptions C19_test_mode_refuted.

(** ** C20 Altered packets *)
(** Two different texts that a stanza with an HMAC key lets act carry HMACs of two different
    texts: who has only seen the first needs a new HMAC, that is, the key.  Missing for the
    full property: stanzas without an HMAC key, HTTP requests (see below), the asymmetric
    mode with a symmetric key, and data of exactly 400 characters, for which the test for the
    GnuPG prefix is off by one. *)
Theorem C20_altered_partial : forall H G cf now1 now2 a p1 p2 d1 d2 f1 f2 k1 k2 e1 e2 hk, hashes_ok H -> a_hmac_key a = Some hk -> hk <> [] -> a_mode a <> 7 ->
  packet_ok p1 -> packet_ok p2 -> ~ is_http cf p1 -> ~ is_http cf p2 -> carries cf p1 d1 -> carries cf p2 d2 -> unprefixed p1 -> unprefixed p2 ->
  zlen d1 <> 400 -> zlen d2 <> 400 -> lets H G cf now1 p1 f1 d1 a k1 e1 -> lets H G cf now2 p2 f2 d2 a k2 e2 -> d1 <> d2 ->
  exists h t1 t2, hash_number H (a_hmac_type a) h /\ t1 <> t2 /\ sealed h (hash_block (a_hmac_type a)) hk t1 d1 /\ sealed h (hash_block (a_hmac_type a)) hk t2 d2.
Proof. exact altered_packets. Qed.
Print Assumptions C20_altered_partial.
Example C20_ex : a_hmac_key a0 = Some ($ "hmac key") /\ packet1 <> packet2 /\ effects (run [a0] cf0 packet1) = Some [Grant 1 grant1] /\ effects (run [a0] cf0 packet2) = Some [Grant 1 grant1] /\
  zlen packet1 <> 400 /\ zlen packet2 <> 400.
Proof. split; [reflexivity|]. split; [vm_compute; congruence|]. split; [vm_compute; reflexivity|]. split; [vm_compute; reflexivity|]. split; vm_compute; congruence. Qed.
(** An accepted packet is accepted again inside an HTTP request with the prefix that the
    client has removed put back: the test for it only looks at the start of the packet. *)
Theorem C20_http_refuted : exists data a d st', run [a] cf0 data = Ok ([Grant 1 d], st') /\ a_hmac_key a = Some ($ "hmac key") /\
  effects (incoming_spa toy nogpg cf0 en0 (pkt ($ "GET /U2FsdGVkX1" ++ data)) st') = Some [Grant 1 d].
Proof. exists packet1, a0, grant1, (after (run [a0] cf0 packet1) (start [])). split; [vm_compute; reflexivity|]. split; [reflexivity|]. vm_compute. reflexivity. Qed.
Print Assumptions C20_http_refuted.
(** Without an HMAC key anything may be appended after an equals sign. *)
Theorem C20_no_hmac_refuted : exists data a d st', run [a] cf0 data = Ok ([Grant 1 d], st') /\ a_key a <> None /\
  effects (incoming_spa toy nogpg cf0 en0 (pkt (data ++ $ "=A")) st') = Some [Grant 1 d].
Proof.
  exists d_nomac, (sample None false None None None [] 0 30 300).
  set (d := M_cycle.mkSpa ($ "alice") 1700000000 ($ "3.0.0") 1 ($ "1.2.3.4,tcp/22") ($ "1.2.3.4") ($ "10.1.1.3") [] ($ "192.168.1.1") ($ "tcp/22") None None 0 30 ($ "1.2.3.4")).
  exists d, (after (run [sample None false None None None [] 0 30 300] cf0 d_nomac) (start [])). split; [vm_compute; reflexivity|]. split; [discriminate|]. vm_compute. reflexivity.
Qed.
Print Assumptions C20_no_hmac_refuted.

(** ** C23 Packet age *)
(** Missing for the full property: differences of 2^31 seconds and more, see below. *)
Theorem C23_packet_age_partial : forall H G cf en p st effs st' data, hashes_ok H -> packet_ok p -> config_ok (st_acc st) ->
  on (cf_aging cf) -> carries cf p data ->
  (forall a m, In a (st_acc st) -> opens H G a data m -> cf_max_age cf < Z.abs (e_now en - s_time m) < 2147483648) ->
  incoming_spa H G cf en p st = Ok (effs, st') -> effs = [].
Proof.
  intros H G cf en p st effs st' data HO PO CO ON CA OLD E. destruct effs as [|e effs]; auto. exfalso.
  destruct (authorized _ _ _ _ _ _ _ _ e HO PO CO E (or_introl eq_refl)) as (data' & fwd & i & a & CA' & _ & _ & N & _ & _ & m & d & O & _ & (FR & _) & _).
  rewrite (carries_fun _ _ _ _ CA' CA) in O. specialize (OLD a m (nth_error_In _ _ N) O). specialize (FR ON). rewrite i32_small in FR; lia.
Qed.
Print Assumptions C23_packet_age_partial.
Example C23_ex : on (cf_aging cf0) /\ effects (incoming_spa toy nogpg cf0 (mkEnv 1700000120 true) (pkt packet1) (start [a0])) = Some [Grant 1 grant1] /\
  effects (incoming_spa toy nogpg cf0 (mkEnv 1700000121 true) (pkt packet1) (start [a0])) = Some [] /\
  effects (incoming_spa toy nogpg cf0 (mkEnv 1699999880 true) (pkt packet1) (start [a0])) = Some [Grant 1 grant1] /\
  effects (incoming_spa toy nogpg cf0 (mkEnv 1699999879 true) (pkt packet1) (start [a0])) = Some [].
Proof. split; [exists []; auto|]. ands; vm_compute; reflexivity. Qed.
(** The difference is kept in an int: packets from 68 years away are fresh. *)
Theorem C23_wrap_refuted : exists data a d st' now, incoming_spa toy nogpg cf0 (mkEnv now true) (pkt data) (start [a]) = Ok ([Grant 1 d], st') /\
  Z.abs (now - d_time d) > cf_max_age cf0 /\ on (cf_aging cf0).
Proof.
  exists packet1, a0, grant1, (after (incoming_spa toy nogpg cf0 (mkEnv 3900000000 true) (pkt packet1) (start [a0])) (start [])), 3900000000.
  split; [vm_compute; reflexivity|]. split; [reflexivity|]. exists []. auto.
Qed.
Print Assumptions C23_wrap_refuted.

(** ** C24 Expiration *)
(** After its expiration date a stanza does nothing. *)
Theorem C24_expired_nothing : forall H G cf en p st effs st' i a e, hashes_ok H -> packet_ok p -> config_ok (st_acc st) ->
  incoming_spa H G cf en p st = Ok (effs, st') -> nth_error (st_acc st) i = Some a -> a_expire a > 0 -> e_now en > a_expire a ->
  In e effs -> of_stanza e <> 1 + Z.of_nat i.
Proof.
  intros H G cf en p st effs st' i a e HO PO CO E N X1 X2 IN NU.
  destruct (authorized _ _ _ _ _ _ _ _ e HO PO CO E IN) as (data & fwd & j & b & _ & _ & _ & NB & LE).
  pose proof (lets_number _ _ _ _ _ _ _ _ _ _ LE) as LN. assert (j = i) by lia. subst j. rewrite N in NB. injection NB as <-.
  destruct LE as (_ & NX & _). apply NX. split; auto.
Qed.
Print Assumptions C24_expired_nothing.
(** A stanza that was looked at after that date, for a packet of its networks that was
    processed but not acted upon, is marked. *)
Theorem C24_noticed_partial : forall H G cf en p st st' data i a, hashes_ok H -> packet_ok p -> config_ok (st_acc st) -> cache_ok (fst (st_replay st)) ->
  processed H cf (fst (st_replay st)) p data -> incoming_spa H G cf en p st = Ok ([], st') ->
  nth_error (st_acc st) i = Some a -> addressed a p -> a_expire a > 0 -> e_now en > a_expire a ->
  nth_error (st_acc st') i = Some (expire_stanza a) \/ (a_expired a = true /\ nth_error (st_acc st') i = Some a).
Proof. exact noticed. Qed.
Print Assumptions C24_noticed_partial.
(** A marked stanza stays marked and does nothing whatever the clock, until a restart. *)
Theorem C24_marked_for_good_partial : forall H G cf st l st' i a, hashes_ok H -> config_ok (st_acc st) -> only_arrivals l -> history H G cf st l st' ->
  nth_error (st_acc st) i = Some a -> a_expire a > 0 -> a_expired a = true ->
  nth_error (st_acc st') i = Some a /\ forall h effs e, In (h, effs) l -> In e effs -> of_stanza e <> 1 + Z.of_nat i.
Proof. exact sticky. Qed.
Print Assumptions C24_marked_for_good_partial.
Definition a_dated : stanza := sample (Some ($ "hmac key")) false None None None [] 1700000050 30 300.
Example C24_ex : effects (run [a_dated] cf0 packet1) = Some [] /\ map a_expired (st_acc (after (run [a_dated] cf0 packet1) (start []))) = [true] /\
  effects (incoming_spa toy nogpg cf0 (mkEnv 1700000040 true) (pkt packet2) (after (run [a_dated] cf0 packet1) (start []))) = Some [].
Proof. ands; vm_compute; reflexivity. Qed.
(** The mark is only set when a packet reaches the stanza: if the clock is set back before
    that, the stanza grants access again. *)
Theorem C24_clock_set_back_refuted : exists junk data a d st1 st2, a_expire a = 1700000050 /\
  incoming_spa toy nogpg cf0 (mkEnv 1700000060 true) (pkt junk) (start [a]) = Ok ([], st1) /\
  incoming_spa toy nogpg cf0 (mkEnv 1700000040 true) (pkt data) st1 = Ok ([Grant 1 d], st2).
Proof.
  exists ($ "x"), packet1, a_dated, grant1, (start [a_dated]), (after (incoming_spa toy nogpg cf0 (mkEnv 1700000040 true) (pkt packet1) (start [a_dated])) (start [])).
  split; [reflexivity|]. split; vm_compute; reflexivity.
Qed.
Print Assumptions C24_clock_set_back_refuted.

(** ** C27 Lifetime *)
(** A lifetime that the client asked for is at most the maximum of the stanza; otherwise it
    is the one of the stanza or 30 seconds.  Missing for the full property: these may be
    larger than the maximum, see below. *)
Theorem C27_lifetime_partial : forall H G cf en p st effs st' k d, hashes_ok H -> packet_ok p -> config_ok (st_acc st) ->
  incoming_spa H G cf en p st = Ok (effs, st') -> In (Grant k d) effs ->
  exists i a, k = 1 + Z.of_nat i /\ nth_error (st_acc st) i = Some a /\
    (0 <= a_max_timeout a < 4294967296 -> d_client_timeout d > 0 -> d_timeout d <= a_max_timeout a) /\
    (d_client_timeout d <= 0 -> d_timeout d = a_fw_timeout a \/ d_timeout d = 30).
Proof.
  intros H G cf en p st effs st' k d HO PO CO E IN.
  destruct (authorized _ _ _ _ _ _ _ _ _ HO PO CO E IN) as (data & fwd & i & a & _ & _ & _ & N & _ & _ & m & d' & _ & _ & _ & AS & (K & D & _)).
  subst d'. exists i, a. split; auto. split; auto. pose proof (as_timeout _ _ _ _ _ AS) as DU. rewrite <- (as_client _ _ _ _ _ AS) in DU.
  split; intros; destruct DU as [[? ->]|[(? & ? & ->)|(? & ? & ->)]]; try lia; auto. unfold u32. rewrite Z.mod_small; lia.
Qed.
Print Assumptions C27_lifetime_partial.
Example C27_ex : effects (run [sample (Some ($ "hmac key")) false None None None [] 0 30 25] cf0 packet1) =
  Some [Grant 1 (M_cycle.mkSpa ($ "alice") 1700000000 ($ "3.0.0") 4 ($ "1.2.3.4,tcp/22") ($ "1.2.3.4") ($ "10.1.1.3") [] ($ "192.168.1.1")
    ($ "tcp/22") (Some ($ "192.168.1.2,22")) None 60 25 ($ "1.2.3.4"))].
Proof. vm_compute. reflexivity. Qed.
Theorem C27_default_refuted : exists data a d st', run [a] cf0 data = Ok ([Grant 1 d], st') /\ d_timeout d > a_max_timeout a /\ d_client_timeout d = 0.
Proof.
  exists d_any, (sample (Some ($ "hmac key")) false None None None [] 0 600 300).
  set (r := run _ _ _). vm_compute in r. subst r. do 2 eexists. split; [reflexivity|]. split; reflexivity.
Qed.
Print Assumptions C27_default_refuted.

(** ** C28 The address opened *)
(** Missing for the full property: requests that end with the X-Forwarded-For header. *)
Theorem C28_address_partial : forall H G cf en p st effs st' k d, hashes_ok H -> packet_ok p -> config_ok (st_acc st) ->
  (forall v b, forward_header cf p v b -> b <> []) ->
  incoming_spa H G cf en p st = Ok (effs, st') -> In (Grant k d) effs ->
  exists data fwd i a m src rest psrc, carries cf p data /\ forwarded cf p fwd /\ k = 1 + Z.of_nat i /\ nth_error (st_acc st) i = Some a /\ opens H G a data m /\
    s_msg m = src ++ [","%byte] ++ rest /\ (exists x, text_of_addr src x) /\ dotted psrc (p_src (k_info p)) /\
    ((src <> $ "0.0.0.0" /\ d_use d = src) \/
     (src = $ "0.0.0.0" /\ a_require_src a = false /\ ((fwd <> [] /\ d_use d = fwd) \/ (fwd = [] /\ d_use d = psrc)))).
Proof.
  intros H G cf en p st effs st' k d HO PO CO NE E IN.
  destruct (authorized _ _ _ _ _ _ _ _ _ HO PO CO E IN) as (data & fwd & i & a & CA & _ & FW & N & _ & _ & m & d' & O & _ & _ & AS & (K & D & _)).
  subst d'. exists data, fwd, i, a, m, (d_src d), (d_remain d), (d_pkt_src d). destruct (as_split _ _ _ _ _ AS) as [S1 S2].
  split; auto. split. { destruct FW as [FW|(c & v & FH & _)]; auto. exfalso. exact (NE _ _ FH eq_refl). }
  split; auto. split; auto. split; auto. split; auto. split; auto. split; [apply (as_pkt_src _ _ _ _ _ AS)|]. exact (as_use _ _ _ _ _ AS).
Qed.
Print Assumptions C28_address_partial.
Definition used (r : outcome (list effect * sstate)) : option bytes := match r with Ok ([Grant _ d], _) => Some (d_use d) | _ => None end.
Example C28_ex : used (run [a0] cf0 packet1) = Some ($ "1.2.3.4") /\ used (run [a0] cf0 d_any) = Some ($ "10.1.1.3") /\
  used (run [a0] cf0 ($ "GET /" ++ d_any ++ $ " HTTP/1.1 X-Forwarded-For: 11.2.3.4 ")) = Some ($ "11.2.3.4").
Proof. ands; vm_compute; reflexivity. Qed.
(** If the header ends the request, the first character of the address is lost. *)
Theorem C28_header_at_end_refuted : exists data, run [a0] cf0 data <> Fault /\ (exists q, data = q ++ $ "X-Forwarded-For: 11.2.3.4") /\ used (run [a0] cf0 data) = Some ($ "1.2.3.4").
Proof.
  exists ($ "GET /" ++ d_any ++ $ " HTTP/1.1 X-Forwarded-For: 11.2.3.4"). split; [|split; [|vm_compute; reflexivity]].
  - intro Q. assert (effects (run [a0] cf0 ($ "GET /" ++ d_any ++ $ " HTTP/1.1 X-Forwarded-For: 11.2.3.4")) <> None) by (vm_compute; discriminate). rewrite Q in H. apply H. reflexivity.
  - exists ($ "GET /" ++ d_any ++ $ " HTTP/1.1 "). rewrite <- !app_assoc. reflexivity.
Qed.
Print Assumptions C28_header_at_end_refuted.

(** ** C29 Commands *)
(** The command line is the text of the message, possibly with sudo in front, and it runs
    with the ids of the configured user.  Missing for the full property: names that start
    with root count as root (see below); the sudo group needs a command group. *)
Theorem C29_command_partial : forall H G cf en p st effs st' k cmd who, hashes_ok H -> packet_ok p -> config_ok (st_acc st) ->
  incoming_spa H G cf en p st = Ok (effs, st') -> In (Command k cmd who) effs ->
  exists data i a m src command, carries cf p data /\ k = 1 + Z.of_nat i /\ nth_error (st_acc st) i = Some a /\ opens H G a data m /\
    a_cmd a = true /\ cf_test cf = false /\ s_type m = 0 /\ s_msg m = src ++ [","%byte] ++ command /\ (exists x, text_of_addr src x) /\
    command_line cf a command cmd /\ runs_as a who.
Proof.
  intros H G cf en p st effs st' k cmd who HO PO CO E IN.
  destruct (authorized _ _ _ _ _ _ _ _ _ HO PO CO E IN) as (data & fwd & i & a & CA & _ & FW & N & _ & _ & m & d & O & _ & _ & AS & (K & CY & TY & T & AC & CL & RA)).
  destruct (as_split _ _ _ _ _ AS) as [S1 S2]. exists data, i, a, m, (d_src d), (d_remain d). repeat (split; [solve [auto]|]). auto.
Qed.
Print Assumptions C29_command_partial.
Example C29_ex : effects (run [a0] cf0 d_cmd) = Some [Command 1 ($ "/bin/id") None] /\
  effects (run [sample (Some ($ "hmac key")) false (Some ($ "bob")) None None [] 0 30 300] cf0 d_cmd) = Some [Command 1 ($ "/bin/id") (Some (1000, 1000))] /\
  effects (run [sample (Some ($ "hmac key")) true None None None [] 0 30 300] cf0 d_cmd) = Some [Command 1 ($ "/usr/bin/sudo /bin/id") None].
Proof. ands; vm_compute; reflexivity. Qed.
(** A configured user whose name starts with root: the command runs with the privileges of
    the daemon. *)
Theorem C29_root_prefix_refuted : exists data a cmd st', a_cmd_user a = Some ($ "rootless") /\ a_uid a = 1000 /\ run [a] cf0 data = Ok ([Command 1 cmd None], st').
Proof.
  exists d_cmd, (sample (Some ($ "hmac key")) false (Some ($ "rootless")) None None [] 0 30 300), ($ "/bin/id").
  eexists. split; [reflexivity|]. split; [reflexivity|]. vm_compute. reflexivity.
Qed.
Print Assumptions C29_root_prefix_refuted.
(** A command group without a sudo group: a NULL pointer is dereferenced. *)
Theorem C29_group_refuted : exists data a, a_sudo a = true /\ a_cmd_group a = Some ($ "staff") /\ a_sudo_group a = None /\ run [a] cf0 data = Fault.
Proof.
  exists d_cmd, (sample (Some ($ "hmac key")) true None (Some ($ "staff")) None [] 0 30 300). ands; vm_compute; reflexivity.
Qed.
Print Assumptions C29_group_refuted.

(** ** C30 Test mode *)
(** Missing for the full property: command cycles. *)
Theorem C30_test_mode_partial : forall H G cf en p st effs st' e, hashes_ok H -> packet_ok p -> config_ok (st_acc st) -> cf_test cf = true ->
  incoming_spa H G cf en p st = Ok (effs, st') -> In e effs ->
  exists i a cmd, e = CycleOpen (1 + Z.of_nat i) cmd /\ nth_error (st_acc st) i = Some a /\ a_cycle a <> None.
Proof.
  intros H G cf en p st effs st' e HO PO CO T E IN.
  destruct (authorized _ _ _ _ _ _ _ _ _ HO PO CO E IN) as (data & fwd & i & a & _ & _ & _ & N & _ & _ & m & d & _ & _ & _ & _ & MY).
  destruct e as [k d0|k cmd who|k cmd]; cbn [may] in MY.
  - destruct MY as (_ & _ & _ & _ & Q & _). congruence.
  - destruct MY as (_ & _ & _ & Q & _). congruence.
  - destruct MY as (-> & cc & CC & _). exists i, a, cmd. split; auto. split; auto. congruence.
Qed.
Print Assumptions C30_test_mode_partial.
(** So without command cycles nothing is ever done. *)
Theorem C30_no_cycles : forall H G cf en p st effs st', hashes_ok H -> packet_ok p -> config_ok (st_acc st) -> cf_test cf = true ->
  (forall a, In a (st_acc st) -> a_cycle a = None) -> incoming_spa H G cf en p st = Ok (effs, st') -> effs = [].
Proof.
  intros H G cf en p st effs st' HO PO CO T NC E. destruct effs as [|e effs]; auto. exfalso.
  destruct (C30_test_mode_partial _ _ _ _ _ _ _ _ e HO PO CO T E (or_introl eq_refl)) as (i & a & cmd & _ & N & Q). apply Q, NC. eapply nth_error_In; eauto.
Qed.
Print Assumptions C30_no_cycles.
Example C30_ex : effects (run [a0] cf_t packet1) = Some [] /\ effects (run [a0] cf_t d_cmd) = Some [] /\ cf_test cf_t = true.
Proof. ands; vm_compute; reflexivity. Qed.
Theorem C30_cycle_refuted : exists data a st', run [a] cf_t data = Ok ([CycleOpen 1 ($ "open 1.2.3.4")], st').
Proof. exists packet1, a_cycled. eexists. vm_compute. reflexivity. Qed.
Print Assumptions C30_cycle_refuted.

(** ** C34 HTTP requests *)
(** What is decrypted is what the packet carries, and base64 text. *)
Theorem C34_data : forall cf p data fwd, packet_ok p -> preprocess cf p = Ok (Some (data, fwd)) ->
  carries cf p data /\ data_ok data /\ unprefixed p /\ agent_ok cf p.
Proof. exact pre_sound. Qed.
Print Assumptions C34_data.
Theorem C34_data_unique : forall cf p data data', carries cf p data -> carries cf p data' -> data = data'.
Proof. exact carries_fun. Qed.
Print Assumptions C34_data_unique.
(** Conversely every well-formed packet gets through, if no memory fault happens (C51). *)
Theorem C34_complete : forall cf p data, packet_ok p -> carries cf p data -> data_ok data -> unprefixed p -> agent_ok cf p ->
  preprocess cf p = Fault \/ exists fwd, preprocess cf p = Ok (Some (data, fwd)).
Proof. exact pre_complete. Qed.
Print Assumptions C34_complete.
Example C34_ex : packet_ok (pkt ($ "GET /" ++ map (fun c => if beq c "+"%byte then "-"%byte else if beq c "/"%byte then "_"%byte else c) packet1 ++ $ " HTTP/1.1")) /\
  preprocess cf0 (pkt ($ "GET /" ++ map (fun c => if beq c "+"%byte then "-"%byte else if beq c "/"%byte then "_"%byte else c) packet1 ++ $ " HTTP/1.1")) = Ok (Some (packet1, [])) /\
  existsb (fun c => beq c "+"%byte || beq c "/"%byte) packet1 = true.
Proof. split; [apply pkt_valid; vm_compute; discriminate|]. split; vm_compute; reflexivity. Qed.

(** ** C51 Memory safety of the preprocessing *)
(** Missing for the full property: requests that end with the X-Forwarded-For header, and
    values of that header with 16 characters. *)
Theorem C51_preprocess_memory_partial : forall cf p, packet_ok p -> (forall v b, forward_header cf p v b -> b <> [] /\ zlen v <= 15) -> preprocess cf p <> Fault.
Proof. exact pre_no_fault. Qed.
Print Assumptions C51_preprocess_memory_partial.
Example C51_ex : forall v b, forward_header cf0 (pkt packet1) v b -> b <> [] /\ zlen v <= 15.
Proof. intros v b (_ & (_ & g & r & E & L) & _). exfalso. rewrite pkt_payload in E. exact (packet1_plain g r E L). Qed.
(** Sixteen characters that are taken for an address: 17 bytes are stored in an array of 16. *)
Theorem C51_long_address_refuted : exists q, zlen q <= 1500 /\ preprocess cf0 (pkt q) = Fault /\ exists a b, q = a ++ $ "X-Forwarded-For: 255.255.255.0255" ++ b.
Proof.
  exists ($ "GET /" ++ packet1 ++ $ " HTTP/1.1 X-Forwarded-For: 255.255.255.0255 "). split; [vm_compute; discriminate|]. split; [vm_compute; reflexivity|].
  exists ($ "GET /" ++ packet1 ++ $ " HTTP/1.1 "), ($ " "). rewrite <- !app_assoc. reflexivity.
Qed.
Print Assumptions C51_long_address_refuted.

(** ** C52 Packets that are not acted upon *)
(** They leave no trace but the digest of their data and the expiration marks. *)
Theorem C52_no_trace : forall H G cf en p st st', hashes_ok H -> packet_ok p -> incoming_spa H G cf en p st = Ok ([], st') ->
  st_cycles st' = st_cycles st /\ Forall2 same_stanza (st_acc st) (st_acc st') /\
  exists data new, carries cf p data /\ fst (st_replay st') = new ++ fst (st_replay st) /\
    Forall (fun c => c = new_element (packet_digest H data) (k_info p) (e_now en)) new /\
    (snd (st_replay st') = snd (st_replay st) \/ st_replay st' = happen (st_replay st) (Recorded (packet_digest H data) (k_info p) (e_now en))).
Proof.
  intros H G cf en p st st' HO PO E. destruct (nothing_done _ _ _ _ _ _ _ E) as [A B]. split; auto. split; auto. eapply replay_kept; eauto.
Qed.
Print Assumptions C52_no_trace.
Example C52_ex : effects (run [a0] cf0 (removelast packet1 ++ $ "x")) = Some [] /\ after (run [a0] cf0 (removelast packet1 ++ $ "x")) (start []) = start [a0].
Proof. split; vm_compute; reflexivity. Qed.
