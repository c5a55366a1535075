(** Properties of the client: what it sends, and what the server makes of it. *)
From Verif Require Import Bytes M_accfile M_base64 M_util M_message M_codec M_cipher M_ctx M_access M_replay M_cycle M_incoming M_packet M_codec M_client S_base64 S_text S_codec S_cipher S_ctx S_access S_replay S_conf S_cycle M_send S_client S_incoming S_packet S_send
  P_bytes P_base64 P_util P_access P_incoming3 P_incoming7 P_client P_client2 P_client4 P_client5 P_client6 P_send2 P_send3 P_send4 P_send5 T_codec T_ctx T_incoming T_client.
From Coq Require Import Init.Byte List ZArith Bool Lia.
Import ListNotations.
Open Scope Z_scope.

(** ** C65 From the options to the grant *)
(** Missing for the full property: commands, packets of 400 characters and more, and short
    ones (see below); keys for GnuPG; stanzas with a command cycle. *)
Theorem C65_granted_partial : forall H G v w cf en o x sv s b p st i a md effs st',
  hashes_ok H -> options_ok o -> world_ok v -> route_ok w x ->
  (o_nat_rand o = true -> v_seed v 1%nat = true) -> o_command o = [] ->
  (forall m, wants v o m -> fits (or_default (o_digest o) 3) m /\ 1000000000 <= s_time m /\ passes cf (e_now en) a m /\
     forall n, sent_length o m n -> n < 400) ->
  api_mode (or_default (o_mode o) 2) md ->
  client H v w o x = Ok (mkEnding sv (Some s) b) -> arrives s p -> (x_proto x = HTTP -> http_served cf x) ->
  packet_ok p -> config_ok (st_acc st) -> cache_ok (fst (st_replay st)) -> e_writable en = true -> cf_test cf = false ->
  nth_error (st_acc st) i = Some a -> agreed o a -> addressed a p -> ~ expired (e_now en) a -> a_cycle a = None ->
  (forall t, access_wanted o t -> ports_allowed a t) -> (o_ip o <> $ "0.0.0.0" \/ a_require_src a = false) ->
  (forall data, carries cf p data -> ~ remembered (fst (st_replay st)) (packet_digest H data) /\ (forall fwd, closable H G p fwd data (st_acc st)) /\
     forall fwd j a' e, (j < i)%nat -> nth_error (st_acc st) j = Some a' -> ~ lets H G cf (e_now en) p fwd data a' (1 + Z.of_nat j) e) ->
  incoming_spa H G cf en p st = Ok (effs, st') ->
  exists m d fwd, wants v o m /\ effs = [Grant (1 + Z.of_nat i) d] /\ asks a p fwd m d /\ forwarded_read cf p fwd /\
    d_src d = o_ip o /\ access_wanted o (d_remain d).
Proof. exact client_granted. Qed.
Print Assumptions C65_granted_partial.

Definition x0 : route := route0 UDP 0 false [] [] false.
Definition sent0 : bytes := Eval vm_compute in match data_of (make_packet toy v0 o0) with Some d => d | None => [] end.
Lemma sent0_is : client toy v0 w0 o0 x0 = Ok (mkEnding (Some (sent0 ++ [x0a])) (Some (Datagram ($ "fw.example.org") 62201 sent0)) true).
Proof. vm_compute. reflexivity. Qed.
Lemma o0_sent m n : wants v0 o0 m -> sent_length o0 m n -> n = 204.
Proof. intros W (l & P & ->). rewrite (o0_length m l W P). reflexivity. Qed.
Lemma o0_access t : access_wanted o0 t -> t = $ "tcp/22".
Proof. intros (c & PC & W). destruct PC as [n PC|PC NP|PC NP]; [discriminate PC|destruct (NP eq_refl)|]. exact W. Qed.
(** All the hypotheses hold of the sample, for whatever the server does with the packet. *)
Example C65_ex : exists effs st', incoming_spa toy nogpg cf0 en0 (pkt sent0) (start [a0]) = Ok (effs, st') /\
  exists m d fwd, wants v0 o0 m /\ effs = [Grant 1 d] /\ asks a0 (pkt sent0) fwd m d /\ forwarded_read cf0 (pkt sent0) fwd /\
    d_src d = $ "10.1.1.3" /\ access_wanted o0 (d_remain d).
Proof.
  destruct (incoming_spa toy nogpg cf0 en0 (pkt sent0) (start [a0])) as [[effs st']|] eqn:E; [|exfalso; vm_compute in E; discriminate E].
  exists effs, st'. split; [reflexivity|].
  apply (C65_granted_partial toy nogpg v0 w0 cf0 en0 o0 x0 (Some (sent0 ++ [x0a])) (Datagram ($ "fw.example.org") 62201 sent0) true (pkt sent0) (start [a0]) 0%nat a0 CBC effs st'
           toy_ok o0_ok v0_ok (route0_ok _ _ _ _ _) (fun _ => eq_refl) eq_refl).
  - intros m W. destruct (o0_wants m W) as (R & U & T & V & TY & M & N & TO). split; [apply o0_fits; auto|]. rewrite T. split; [discriminate|]. split.
    + unfold passes. rewrite T, U, TY. split; [intros _; vm_compute; discriminate|]. split; [intros u Q; discriminate Q|]. split; intros [Q|Q]; discriminate Q.
    + intros n L. rewrite (o0_sent m n W L). reflexivity.
  - constructor.
  - exact sent0_is.
  - pose proof (ar_datagram ($ "fw.example.org") 62201 (pkt sent0)) as A. rewrite pkt_payload in A. exact A.
  - discriminate.
  - apply pkt_valid. vm_compute. discriminate.
  - apply sample_ok. constructor; [unfold a0; eauto 20|constructor].
  - constructor.
  - reflexivity.
  - reflexivity.
  - reflexivity.
  - constructor; [reflexivity| |reflexivity|].
    + intros k k' K U. apply o0_key in K. subst k. rewrite U. reflexivity.
    + split; [split; discriminate|]. split; [reflexivity|]. intros y Y. cbn in Y. subst y. split; [reflexivity|discriminate].
  - split; [|intros l Q; discriminate Q]. exists (mknet 0 0). split; [left; reflexivity|reflexivity].
  - intros (Q & _). discriminate Q.
  - reflexivity.
  - intros t T. rewrite (o0_access t T).
    assert (PP : proto_port ($ "tcp/22")).
    { exists ($ "tcp"), ($ "22"). split; [auto|]. split; [reflexivity|]. split; [split; discriminate|]. split; [repeat constructor; vm_compute; discriminate|split; vm_compute; discriminate]. }
    destruct (proto_port_entry _ PP) as (q & PE & _). exists [$ "tcp/22"], [q]. split; [|split; [constructor; [exact PE|constructor]|]].
    + split; [reflexivity|]. split; [discriminate|]. constructor; [intro Q; vm_compute in Q; intuition discriminate|constructor].
    + split; [intros r _ []|intro Q; destruct (Q eq_refl)].
  - left. discriminate.
  - intros data _. split; [intros (c & [] & _)|]. split; [intros fwd a1 m d cc [<-|[]] _ _ Q; discriminate Q|]. intros fwd j a' e J. lia.
  - exact E.
Qed.

(** A command in a short packet: the server does not look at it. *)
Definition o_short : options := mkOptions ($ "fw.example.org") ($ "1.2.3.4") [] ($ "w") [] false 0 false (-1) 0 0 ($ "a") 0 1 pw0 None 0.
Definition short0 : bytes := Eval vm_compute in match data_of (make_packet toy v0 o_short) with Some d => d | None => [] end.
Lemma short_plain : forall g r, short0 = g ++ r -> lower g <> $ "get /".
Proof.
  intros g r E L. rewrite lower_tolower in L. destruct g as [|c g]; [discriminate|]. injection L as L _. vm_compute in E. injection E as E _. subst c. discriminate L.
Qed.
Theorem C65_short_refuted : exists o x sv d, options_ok o /\ client toy v0 w0 o x = Ok (mkEnding sv (Some (Datagram ($ "fw.example.org") 62201 d)) true) /\
  opened (Some d) 2 ($ "pw") None 0 = Some FKO_SUCCESS /\
  forall G cf en p st effs st', payload p = d -> packet_ok p -> config_ok (st_acc st) -> incoming_spa toy G cf en p st = Ok (effs, st') -> effs = [].
Proof.
  exists o_short, x0. exists (Some (short0 ++ [x0a])), short0. split; [opts_ok|]. split; [vm_compute; reflexivity|]. split; [vm_compute; reflexivity|].
  intros G cf en p st effs st' PD PO CO E. destruct effs as [|e effs]; [reflexivity|]. exfalso.
  destruct (C17_authorized_partial _ _ _ _ _ _ _ _ e toy_ok PO CO E (or_introl eq_refl)) as (data & fwd & i & a & CA & ([DL _] & _) & _).
  assert (C2 : carries cf p short0).
  { right. split; [|symmetry; exact PD]. intros (_ & g & r & EQ & L). rewrite PD in EQ. exact (short_plain g r EQ L). }
  rewrite (carries_fun _ _ _ _ CA C2) in DL. exact (DL eq_refl).
Qed.
Print Assumptions C65_short_refuted.
(** A long packet: the server does not try its key, unless the stanza permits commands. *)
Definition o_ports (ports : bytes) : options :=
  mkOptions ($ "fw.example.org") ($ "10.101.101.103") ports [] ($ "192.168.10.10,10080") false 0 false 60 0 0 [] 0 5 pw0 hk0 5.
Definition o_long : options := o_ports ($ "tcp/10022,tcp/10023,tcp/10024,tcp/10025,tcp/10026").
Definition a_long (cmd : bool) : stanza :=
  mkStanza [mknet 0 0] None 0 false true (Some ($ "pw")) 2 (Some ($ "hmac key")) 5 false false false false None None
    false None cmd false None None None None 1000 1000 None [] [] 30 300 nat0.
Definition long0 : bytes := Eval vm_compute in match data_of (make_packet toy v0 o_long) with Some d => d | None => [] end.
Theorem C65_long_refuted : exists o x sv d, options_ok o /\ client toy v0 w0 o x = Ok (mkEnding sv (Some (Datagram ($ "fw.example.org") 62201 d)) true) /\
  opened (Some d) 2 ($ "pw") (Some ($ "hmac key")) 5 = Some FKO_SUCCESS /\ effects (run [a_long false] cf0 d) = Some [] /\
  exists g, effects (run [a_long true] cf0 d) = Some [Grant 1 g].
Proof.
  exists o_long, x0, (Some (long0 ++ [x0a])), long0. split; [opts_ok|]. split; [vm_compute; reflexivity|]. split; [vm_compute; reflexivity|].
  split; [vm_compute; reflexivity|]. eexists. vm_compute. reflexivity.
Qed.
Print Assumptions C65_long_refuted.
(** With more ports the packet is still sent, and nobody can open it. *)
Theorem C64_length_refuted : exists o d, options_ok o /\ data_of (make_packet toy v0 o) = Some d /\ zlen d = 524 /\
  opened (Some d) 2 ($ "pw") (Some ($ "hmac key")) 5 = Some FKO_ERROR_INVALID_DATA_ENCRYPT_TYPE_UNKNOWN.
Proof.
  exists (o_ports ($ "tcp/10022,tcp/10023,tcp/10024,tcp/10025,tcp/10026,tcp/10027,tcp/10028,tcp/10029,tcp/10030,tcp/10031")).
  eexists. split; [opts_ok|]. split; [vm_compute; reflexivity|]. split; vm_compute; reflexivity.
Qed.
Print Assumptions C64_length_refuted.

(** ** C66 Requests to a web server *)
(** The data of a request sent over HTTP are what the server takes from it, and they open to
    the message that the options ask for.  Missing for the full property: requests over a
    proxy (see below). *)
Theorem C66_http_partial : forall cf H v w o x sv s b p md, hashes_ok H -> options_ok o -> world_ok v -> route_ok w x ->
  (o_nat_rand o = true -> v_seed v 1%nat = true) -> (o_command o <> [] -> ~ nat_asked o) ->
  (forall m, wants v o m -> fits (or_default (o_digest o) 3) m) -> api_mode (or_default (o_mode o) 2) md ->
  hmac_usable o -> x_proto x = HTTP -> http_served cf x -> client H v w o x = Ok (mkEnding sv (Some s) b) -> arrives s p ->
  exists m k k' hk data h2, wants v o m /\ key_from (o_server o) (o_key o) k /\ key_used (or_default (o_mode o) 2) k k' /\ hmac_from o k hk /\
    carries cf p data /\ unprefixed p /\ agent_ok cf p /\ packet_text data /\
    fko_new_with_data H (Some data) (Some k') (or_default (o_mode o) 2) hk (match hk with None => 0 | Some _ => o_hmac_type o end) = Ok (FKO_SUCCESS, h2) /\
    shows h2 m.
Proof.
  intros cf H v w o x sv s b p md A1 A2 A3 A4 A5 A6 A7 A8 A9 _ A11 A12 A13.
  destruct (client_delivers cf H v w o x sv s b p md A1 A2 A3 A4 A5 A6 A7 A8 A9 A12 A13 (fun _ => A11)) as (m & k & k' & hk & data & h2 & B1 & B2 & B3 & B4 & B5 & B6 & B7 & B8 & _ & _ & _ & B9 & B10 & _).
  exists m, k, k', hk, data, h2. repeat (split; [assumption|]). assumption.
Qed.
Print Assumptions C66_http_partial.
Definition x_http : route := mkRoute HTTP 80 0 false [] ($ "Fwknop/3.0.0") [] 8 0 false false.
Example C66_ex : http_served cf0 x_http /\
  match client toy v0 w0 o0 x_http with
  | Ok (mkEnding _ (Some (Stream host port d)) true) => host = $ "fw.example.org" /\ port = 80 /\ exists g, effects (run [a0] cf0 d) = Some [Grant 1 g]
  | _ => False
  end.
Proof.
  split. { split; [exists []; auto|]. split; [reflexivity|]. intros _. exists ($ "/3.0.0"). reflexivity. }
  vm_compute. split; [reflexivity|]. split; [reflexivity|]. eexists. reflexivity.
Qed.
(** The name of a proxy is cut to 49 characters without a word. *)
Theorem C66_proxy_cut_refuted : exists x proxy, x_proto x = HTTP /\ x_proxy x = proxy /\ ~ In ":"%byte proxy /\
  match client toy v0 w0 o0 x with
  | Ok (mkEnding _ (Some (Stream host port d)) true) => host <> proxy
  | _ => False
  end.
Proof.
  exists (mkRoute HTTP 80 0 false [] ($ "Fwknop/3.0.0") ($ "a-proxy-with-a-long-name.department.subsidiary.example.org") 8 0 false false). eexists.
  split; [reflexivity|]. split; [reflexivity|]. split; [intro Q; vm_compute in Q; intuition discriminate|]. vm_compute. discriminate.
Qed.
Print Assumptions C66_proxy_cut_refuted.
(** The removal of http:// reads behind the end of a long text. *)
Theorem C66_proxy_read_refuted : exists x, x_proto x = HTTP /\ zlen (x_proxy x) < 2000 /\ client toy v0 w0 o0 x = Fault.
Proof.
  exists (mkRoute HTTP 80 0 false [] ($ "Fwknop/3.0.0") ($ "http://" ++ repeat "a"%byte 1990) 8 0 false false).
  split; [reflexivity|]. split; [vm_compute; reflexivity|]. vm_compute. reflexivity.
Qed.
Print Assumptions C66_proxy_read_refuted.

(** ** C67 Raw packets *)
(** What the kernel makes of a raw packet is an IP datagram to the server's address with the
    data of the client, from the spoofed source address if there is one; an ICMP message has
    the type and code asked for and the right sum. *)
Theorem C67_raw_partial : forall H v w o x sv s b, hashes_ok H -> options_ok o -> world_ok v -> route_ok w x ->
  (o_nat_rand o = true -> v_seed v 1%nat = true) -> (o_command o <> [] -> ~ nat_asked o) -> is_raw (x_proto x) = true ->
  client H v w o x = Ok (mkEnding sv (Some s) b) ->
  exists h data d raw, make_packet H v o = Ok (Some h) /\ fko_get_spa_data h = Ok (FKO_SUCCESS, Some data) /\ s = Raw d raw /\ w_addr w (o_server o) = Some d /\
    (zlen data <= 1500 -> forall ip, on_wire raw ip -> exists src sp dp, datagram ip (mkPkt (raw_number (x_proto x)) src sp d dp) data /\
      (forall a, text_of_addr (x_spoof x) a -> a <> 0 -> src = a) /\
      (x_proto x = ICMP -> sum_ok (skipn 20 ip) /\ field 20 1 ip = x_icmp_type x mod 256 /\ field 21 1 ip = x_icmp_code x mod 256)).
Proof. exact raw_packet. Qed.
Print Assumptions C67_raw_partial.
(** The kernel's packet for the bytes, with an address of its own for a missing one. *)
Definition kernel (raw : bytes) : bytes :=
  firstn 2 raw ++ [zb (zlen raw / 256); zb (zlen raw)] ++ [x12; x34] ++ firstn 4 (skipn 6 raw) ++ [x00; x00] ++
  (if field 12 4 raw =? 0 then [x0a; x01; x01; x03] else firstn 4 (skipn 12 raw)) ++ skipn 16 raw.
Lemma kernel_ok raw : 20 <= zlen raw < 65536 -> on_wire raw (kernel raw).
Proof.
  intro L. unfold zlen in L.
  do 20 (destruct raw as [|? raw]; [cbn in L; lia|]). cbn [length] in L.
  assert (KL : zlen (kernel (b :: b0 :: b1 :: b2 :: b3 :: b4 :: b5 :: b6 :: b7 :: b8 :: b9 :: b10 :: b11 :: b12 :: b13 :: b14 :: b15 :: b16 :: b17 :: b18 :: raw)) =
               zlen (b :: b0 :: b1 :: b2 :: b3 :: b4 :: b5 :: b6 :: b7 :: b8 :: b9 :: b10 :: b11 :: b12 :: b13 :: b14 :: b15 :: b16 :: b17 :: b18 :: raw)).
  { unfold kernel. destruct (_ =? 0); reflexivity. }
  split; [exact KL|]. split.
  - set (n := zlen (b :: b0 :: b1 :: b2 :: b3 :: b4 :: b5 :: b6 :: b7 :: b8 :: b9 :: b10 :: b11 :: b12 :: b13 :: b14 :: b15 :: b16 :: b17 :: b18 :: raw)).
    assert (0 <= n < 65536) by (unfold n, zlen; cbn [length]; lia).
    change ((0 * 256 + bv (zb (n / 256))) * 256 + bv (zb n) = n). rewrite !bv_zb. Z.div_mod_to_equations. lia.
  - split.
    + intros i A B. unfold kernel. do 16 (destruct i as [|i]; [try reflexivity; exfalso; lia|]). destruct (_ =? 0); reflexivity.
    + intro N. unfold kernel. destruct (_ =? 0) eqn:Q; [apply Z.eqb_eq in Q; congruence|reflexivity].
Qed.
Definition raw_of (x : route) : bytes := match client toy v0 w0 o0 x with Ok (mkEnding _ (Some (Raw d raw)) true) => raw | _ => [] end.
Example C67_ex : route_ok w0 (route0 ICMP 0 false ($ "10.9.8.7") [] false) /\ text_of_addr ($ "10.9.8.7") 168364039 /\ zlen sent0 <= 1500 /\
  on_wire (raw_of (route0 ICMP 0 false ($ "10.9.8.7") [] false)) (kernel (raw_of (route0 ICMP 0 false ($ "10.9.8.7") [] false))) /\
  match client toy v0 w0 o0 (route0 ICMP 0 false ($ "10.9.8.7") [] false) with
  | Ok (mkEnding _ (Some (Raw d raw)) true) => d = 167772417 /\ zlen raw = 28 + zlen sent0
  | _ => False
  end.
Proof.
  split; [apply route0_ok|]. split.
  { exists 10, 9, 8, 7. split; [|split; [vm_compute; discriminate|reflexivity]].
    exists ($ "10"), ($ "9"), ($ "8"), ($ "7"). split; [reflexivity|]. repeat split; repeat constructor; vm_compute; discriminate. }
  split; [vm_compute; discriminate|]. split; [apply kernel_ok; vm_compute; split; [discriminate|reflexivity]|]. vm_compute. split; reflexivity.
Qed.
(** A raw TCP segment has no sum: a host would not accept it, only who listens to the wire. *)
Theorem C67_tcp_sum_refuted : exists x d raw sv, route_ok w0 x /\ client toy v0 w0 o0 x = Ok (mkEnding sv (Some (Raw d raw)) true) /\
  (exists ip, on_wire raw ip) /\
  forall ip, on_wire raw ip -> ~ sum_ok (pseudo (field 12 4 ip) d 6 (zlen ip - 20) ++ skipn 20 ip).
Proof.
  set (x := route0 TCP_RAW 0 false ($ "10.9.8.7") [] false). exists x, 167772417, (raw_of x), (Some (sent0 ++ [x0a])). split; [apply route0_ok|]. split; [vm_compute; reflexivity|].
  split. { exists (kernel (raw_of x)). apply kernel_ok. vm_compute. split; [discriminate|reflexivity]. }
  intros ip (L & _ & F & S).
  assert (SK : skipn 20 ip = skipn 20 (raw_of x)) by (apply skipn_ext; intros j J; apply F; lia).
  assert (SA : field 12 4 ip = 168364039) by (rewrite S; vm_compute; [reflexivity|discriminate]).
  rewrite SK, SA, L. intros [Q _]. vm_compute in Q. discriminate Q.
Qed.
Print Assumptions C67_tcp_sum_refuted.

(** ** C71 Tests and failures *)
Lemma ports_test H v x h x' h' : choose_ports H v x h = Ok (Some (x', h')) -> x_test x' = x_test x.
Proof.
  unfold choose_ports. intro E. apply sbind_ok in E as ([x1 h1] & E1 & E2).
  assert (x_test x1 = x_test x).
  { destruct (x_rand_port x); [apply sbind_ok in E1 as ([q hq] & _ & E1)|]; injection E1 as <- <-; reflexivity. }
  destruct (is_raw (x_proto x1) && (x_sport x1 =? 0)); [apply sbind_ok in E2 as ([q hq] & _ & E2)|]; injection E2 as <- <-; assumption.
Qed.
(** In a test nothing is sent; nothing is sent in a run that reports a failure; and nothing
    is saved or sent if no packet could be made. *)
Theorem C71_nothing_sent : forall H v w o x n, client H v w o x = Ok n ->
  (x_test x = true -> n_sent n = None) /\ (n_ok n = false -> n_sent n = None) /\
  ((forall h, make_packet H v o <> Ok (Some h)) -> n = mkEnding None None false) /\ (x_save x = false -> n_saved n = None).
Proof.
  intros H v w o x n E. unfold client in E. destruct (make_packet H v o) as [[h|]|] eqn:MP; [|injection E as <-; repeat split; reflexivity|discriminate].
  assert (C : ((forall h0, Ok (Some h) <> Ok (Some h0)) -> n = mkEnding None None false)) by (intro Q; destruct (Q h eq_refl)).
  unfold transmit in E. destruct (fko_get_spa_data h) as [[e d]|]; [|discriminate].
  assert (SV : x_save x = false -> (if x_save x && ok e then option_map (fun t => t ++ [x0a]) d else None) = None) by (intros ->; reflexivity).
  destruct (choose_ports H v x h) as [[[x' h']|]|] eqn:CP; [|injection E as <-; split; [reflexivity|split; [reflexivity|split; [exact C|exact SV]]]|discriminate].
  destruct (fko_get_spa_data h') as [[e' [data|]]|]; [|destruct e'; injection E as <-; (split; [reflexivity|split; [reflexivity|split; [exact C|exact SV]]])|discriminate].
  destruct e'; try (injection E as <-; split; [reflexivity|split; [reflexivity|split; [exact C|exact SV]]]).
  destruct (send_spa_packet w (o_server o) data x') as [[s|]|] eqn:SP; [|injection E as <-; split; [reflexivity|split; [reflexivity|split; [exact C|exact SV]]]|discriminate].
  injection E as <-. split; [|split; [discriminate|split; [exact C|exact SV]]]. intro T. cbn [n_sent].
  rewrite <- (ports_test _ _ _ _ _ _ CP) in T. exact (test_sends_nothing _ _ _ _ _ T SP).
Qed.
Print Assumptions C71_nothing_sent.
Example C71_ex : client toy v0 w0 o0 (route0 UDP 0 false [] [] true) = Ok (mkEnding (Some (sent0 ++ [x0a])) None true) /\
  client toy v0 w0 (opts ip0 ($ "tcp/22") [] [] 0 false 60 0 0 (KText []) None 0) x0 <> Fault.
Proof. split; [vm_compute; reflexivity|vm_compute; discriminate]. Qed.
(** The line in the packet file is the data that are sent. *)
Theorem C71_saved : forall cf H v w o x sv s b p md, hashes_ok H -> options_ok o -> world_ok v -> route_ok w x ->
  (o_nat_rand o = true -> v_seed v 1%nat = true) -> (o_command o <> [] -> ~ nat_asked o) ->
  (forall m, wants v o m -> fits (or_default (o_digest o) 3) m) -> api_mode (or_default (o_mode o) 2) md ->
  hmac_usable o -> client H v w o x = Ok (mkEnding sv (Some s) b) -> arrives s p -> (x_proto x = HTTP -> http_served cf x) -> x_save x = true ->
  exists data, sv = Some (data ++ [x0a]) /\ ~ In x0a data /\ carries cf p data.
Proof.
  intros cf H v w o x sv s b p md A1 A2 A3 A4 A5 A6 A7 A8 A9 A10 A11 A12 A13.
  destruct (client_delivers cf H v w o x sv s b p md A1 A2 A3 A4 A5 A6 A7 A8 A9 A10 A11 A12) as (m & k & k' & hk & data & h2 & _ & _ & _ & _ & B5 & _ & _ & (B8 & _) & _ & _ & B9 & _).
  exists data. split; [auto|]. split; [|exact B5]. intro Q. rewrite Forall_forall in B8. specialize (B8 _ Q). apply b64cb_iff in B8. discriminate B8.
Qed.
Print Assumptions C71_saved.
Example C71_saved_ex : x_save x0 = true /\ client toy v0 w0 o0 x0 = Ok (mkEnding (Some (sent0 ++ [x0a])) (Some (Datagram ($ "fw.example.org") 62201 sent0)) true).
Proof. split; [reflexivity|exact sent0_is]. Qed.
