(** Proofs about the client: from its options to the decision of the server. *)
From Verif Require Import Bytes M_accfile M_base64 M_util M_message M_codec M_cipher M_ctx M_access M_replay M_cycle M_incoming M_packet M_codec M_client S_base64 S_text S_codec S_cipher S_ctx S_access S_conf S_cycle M_send S_client S_incoming S_packet S_send
  P_bytes P_base64 P_util P_util2 P_message P_codec P_cycle P_ctx P_ctx2 P_ctx3 P_ctx4 P_ctx5 P_ctx6 P_packet P_client P_client2 P_client3 P_client4 P_client5 P_send P_send2 P_send3 P_incoming2 P_incoming3 P_incoming8.
From Coq Require Import Init.Byte List ZArith Bool Lia.
Import ListNotations.
Open Scope Z_scope.

Local Ltac ands := repeat match goal with |- _ /\ _ => split end.

Lemma raw_sent w x server data s : route_ok w x -> is_raw (x_proto x) = true -> send_spa_packet w server data x = Ok (Some (Some s)) ->
  exists d src id check seg sp dp, s = Raw d (ip_header (raw_number (x_proto x)) (20 + zlen seg) id check src d ++ seg) /\
    w_addr w server = Some d /\ source_addr x = Some src /\ segment (raw_number (x_proto x)) seg sp dp data /\
    (x_proto x <> ICMP -> sp = x_sport x /\ dp = x_dport x) /\
    (x_proto x = ICMP -> seg = icmp_segment (x_icmp_type x) (x_icmp_code x) (w_icmp_id w) data) /\ 0 <= src < 4294967296 /\ 0 <= d < 4294967296.
Proof.
  intros RO RW E. pose proof (rt_dport w x RO) as D. pose proof (rt_sport w x RO) as S. unfold send_spa_packet in E.
  destruct (x_proto x); try discriminate RW; destruct (source_addr x) as [src|] eqn:SA; try discriminate; destruct (w_addr w server) as [d|] eqn:AD; try discriminate;
    destruct (x_test x); try discriminate; injection E as <-; pose proof (rt_addr w x RO _ _ AD); destruct (source_addr_range _ _ SA) as [SR _].
  - unfold ip_packet. cbn [raw_number]. do 5 eexists. exists (x_sport x), (x_dport x). split; [reflexivity|]. ands; auto; try lia; try discriminate. apply udp_segment_is; lia.
  - unfold ip_packet. cbn [raw_number]. do 5 eexists. exists (x_sport x), (x_dport x). split; [reflexivity|]. ands; auto; try lia; try discriminate. apply tcp_segment_is; lia.
  - unfold icmp_packet. cbn [raw_number].
    assert (L : 28 + zlen data = 20 + zlen (icmp_segment (x_icmp_type x) (x_icmp_code x) (w_icmp_id w) data)).
    { unfold icmp_segment. destruct (icmp_message_split (x_icmp_type x) (x_icmp_code x) (chksum (icmp_message (x_icmp_type x) (x_icmp_code x) 0 (w_icmp_id w) data)) (w_icmp_id w) data) as (h & -> & HL).
      rewrite zlen_app. lia. }
    rewrite L. do 5 eexists. exists 0, 0. split; [reflexivity|]. ands; auto; try lia; try congruence. apply icmp_segment_is.
Qed.
Lemma raw_number_range p : 0 <= raw_number p < 256.
Proof. destruct p; cbn; lia. Qed.
Lemma arrival cf w x server data s p : route_ok w x -> packet_text data -> no_nul server -> zlen server <= 49 ->
  send_spa_packet w server data x = Ok (Some (Some s)) -> arrives s p -> (x_proto x = HTTP -> http_served cf x) ->
  carries cf p data /\ unprefixed p /\ agent_ok cf p.
Proof.
  intros RO T NS LS E A HS.
  assert (P : payload p = data -> carries cf p data /\ unprefixed p /\ agent_ok cf p).
  { intro PE. destruct (text_start cf p data PE T) as [NH U]. ands; auto using text_carries; try apply U. intros _ IH. contradiction. }
  destruct (is_raw (x_proto x)) eqn:RW.
  - destruct (raw_sent _ _ _ _ _ RO RW E) as (d & src & id & check & seg & sp & dp & -> & AD & SA & SG & _ & _ & SR & DR).
    inversion A as [| |a0 raw ip p0 W DG]; subst. apply P.
    pose proof (segment_len _ _ _ _ _ SG). destruct T as (_ & TL & _). assert (SL : 20 + zlen seg < 65536) by lia.
    destruct (wire_datagram _ _ _ _ _ _ _ _ _ _ (raw_number_range (x_proto x)) SR DR SL W SG) as (src' & _ & DG').
    apply (datagram_fun _ _ _ _ _ DG DG').
  - unfold send_spa_packet in E. destruct (x_proto x) eqn:XP; try discriminate RW.
    + destruct (x_test x); [discriminate|]. injection E as <-. inversion A; subst. auto.
    + destruct (x_test x); [discriminate|]. injection E as <-. inversion A; subst. auto.
    + destruct (HS eq_refl) as (ON & PX & AG). unfold send_http in E. rewrite PX in E. cbn [sbind ret] in E. destruct (x_test x); [discriminate|]. injection E as <-.
      inversion A as [|h q p0 EQ|]; subst. destruct (rt_agent w x RO) as [NA LA].
      destruct (http_carries cf p data (x_agent x) server ON T NA LA NS LS) as (C & U & AO); [symmetry; auto; congruence|]. ands; auto; apply U.
Qed.

Lemma client_delivers cf H v w o x sv s b p md : hashes_ok H -> options_ok o -> world_ok v -> route_ok w x ->
  (o_nat_rand o = true -> v_seed v 1%nat = true) -> (o_command o <> [] -> ~ nat_asked o) ->
  (forall m, wants v o m -> fits (or_default (o_digest o) 3) m) -> api_mode (or_default (o_mode o) 2) md ->
  hmac_usable o ->
  client H v w o x = Ok (mkEnding sv (Some s) b) -> arrives s p -> (x_proto x = HTTP -> http_served cf x) ->
  exists m k k' hk data h2, wants v o m /\ key_from (o_server o) (o_key o) k /\ key_used (or_default (o_mode o) 2) k k' /\ hmac_from o k hk /\
    carries cf p data /\ unprefixed p /\ agent_ok cf p /\ packet_text data /\ sent_length o m (zlen data) /\ (s_type m <> 0 -> 1000000000 <= s_time m -> 140 <= zlen data) /\ (x_save x = true -> sv = Some (data ++ [x0a])) /\
    fko_new_with_data H (Some data) (Some k') (or_default (o_mode o) 2) hk (match hk with None => 0 | Some _ => o_hmac_type o end) = Ok (FKO_SUCCESS, h2) /\
    shows h2 m /\ sendable m.
Proof.
  intros HOK OK WO RO SEED CN FIT AM HM E A HS.
  destruct (make_packet H v o) as [[h|]|] eqn:MP; [|unfold client in E; rewrite MP in E; discriminate|unfold client in E; rewrite MP in E; discriminate].
  destruct (client_packet H v o h HOK OK WO SEED CN MP) as (m & k & k' & hk & W & KF & KU & KH & (c & HC & CR) & SEAL).
  assert (HM' : match hk with None => True | Some y => 1 <= zlen y /\ 1 <= o_hmac_type o <= 7 end).
  { unfold hmac_usable in HM. destruct (o_hmac o) as [sc|]; [|subst; exact I]. destruct KH as (y & -> & KY & _). destruct (HM sc y eq_refl KY) as [NE R]. split; auto.
    destruct y; [congruence|]. rewrite zlen_cons. pose proof (zlen_nonneg y). lia. }
  destruct (SEAL md (FIT m W) AM HM') as (pkt & h2 & G & N & SH & SD & pt & mac & PT & PL & PLL & PK & MAC).
  destruct (packet_form H _ md k' (v_salt v) pt mac _ hk HOK AM (wo_salt v WO) PL MAC) as [T LEN]. rewrite <- PK in T, LEN.
  destruct (client_sends H v w o x sv s b h c (s_rand m) WO MP HC CR (proj1 (wn_rand v o m W)) E) as (_ & _ & data & x' & G' & SV & SND & WAY & DP & NSP & SP).
  rewrite HC in G. unfold fko_get_spa_data in G. rewrite G' in G. injection G as ->.
  destruct WAY as (WP & _ & WS & WA & WX & WI & WC & _).
  assert (RO' : route_ok w x').
  { destruct RO as [R1 R2 R3 R4]. constructor; auto.
    - rewrite DP. destruct (x_rand_port x); auto. pose proof (port_of_range (s_rand m)). lia.
    - destruct (is_raw (x_proto x)) eqn:RW; [|rewrite NSP; auto]. destruct (SP eq_refl) as [[_ ->]|[_ ->]]; auto.
      match goal with |- 0 <= port_of ?r <= _ => pose proof (port_of_range r) end. lia.
    - rewrite WA. auto. }
  destruct (ok_server o OK) as (NS & LS & _).
  destruct (arrival cf w x' (o_server o) pkt s p RO' T NS LS SND A) as (CA & UN & AG).
  { rewrite WP. intro XH. destruct (HS XH) as (ON & PX & AGT). unfold http_served. rewrite WX, WA. auto. }
  exists m, k, k', hk, pkt, h2. ands; auto; try apply UN; try apply T.
  - exists (zlen pt). split; auto. rewrite LEN. unfold hmac_from in KH. destruct (o_hmac o) as [sc|]; [destruct KH as (y & -> & _)|rewrite KH]; reflexivity.
  - intros TY TM. rewrite LEN. pose proof (shortest_access H _ m pt HOK SD TY TM (wn_version v o m W) PT) as L80.
    assert (140 <= body_length (zlen pt)) by (unfold body_length; Z.div_mod_to_equations; lia).
    match goal with |- _ <= _ + mac_length ?t => assert (0 <= mac_length t); [|lia]; unfold mac_length; destruct (Z.to_nat t) as [|[|[|[|[|[|[|[|n]]]]]]]] end; cbn; try lia; destruct n; lia.
  - intro XS. rewrite XS in SV. auto.
Qed.

Lemma sendable_received m : sendable m -> received m.
Proof. intros [A B C D E F G _ [I J]]. constructor; auto. split; auto. intro X. apply J. auto. Qed.
Lemma opens_fun H G a data m m' : opens H G a data m -> key_opens H a data m' -> m = m'.
Proof.
  intros [[K _]|[N _]] K'; [|exfalso; exact (N m' K')].
  destruct K as (_ & _ & k & h & E & F & S), K' as (_ & _ & k2 & h2 & E2 & F2 & S2). rewrite E in E2. injection E2 as <-. rewrite F in F2. injection F2 as <-. exact (shows_unique h m m' S S2).
Qed.
Lemma asks_exists a p fwd m ip rest : packet_ok p -> s_msg m = ip ++ [","%byte] ++ rest -> (exists i, text_of_addr ip i) -> (ip <> $ "0.0.0.0" \/ a_require_src a = false) ->
  exists d, asks a p fwd m d /\ d_remain d = rest /\ d_src d = ip.
Proof.
  intros PO ME TA RS.
  assert (U : exists use, opened_for a ip fwd (inet_ntop (p_src (k_info p))) use).
  { destruct (bseq ip ($ "0.0.0.0")) eqn:B.
    - apply bseq_eq in B. destruct RS as [N|RS]; [congruence|]. destruct fwd as [|f r].
      + exists (inet_ntop (p_src (k_info p))). right. ands; auto.
      + exists (f :: r). right. ands; auto. left. split; [discriminate|auto].
    - exists ip. left. split; auto. intros ->. rewrite (proj2 (bseq_eq _ _) eq_refl) in B. discriminate. }
  destruct U as (use & U).
  exists (M_cycle.mkSpa (s_user m) (s_time m) (s_version m) (s_type m) (s_msg m) ip (inet_ntop (p_src (k_info p))) fwd (inet_ntop (p_dst (k_info p))) rest
            (s_nat m) (s_auth m) (s_timeout m) (set_timeout a (s_timeout m)) use).
  split; [|auto]. constructor; cbn; auto.
  - apply ntop_dotted. apply (po_src p PO).
  - apply ntop_dotted. apply (po_dst p PO).
  - apply duration_iff. reflexivity.
Qed.
Lemma text_no_comma ip i : text_of_addr ip i -> ~ In ","%byte ip.
Proof. intros (a & b & c & d & T & _ & _). apply (ip_comma _ _ _ _ _ T). Qed.

Lemma client_granted H G v w cf en o x sv s b p st i a md effs st' :
  hashes_ok H -> options_ok o -> world_ok v -> route_ok w x ->
  (o_nat_rand o = true -> v_seed v 1%nat = true) -> o_command o = [] ->
  (forall m, wants v o m -> fits (or_default (o_digest o) 3) m /\ 1000000000 <= s_time m /\ passes cf (e_now en) a m /\
     forall n, sent_length o m n -> n < 400) ->
  api_mode (or_default (o_mode o) 2) md ->
  client H v w o x = Ok (mkEnding sv (Some s) b) -> arrives s p -> (x_proto x = HTTP -> http_served cf x) ->
  packet_ok p -> config_ok (st_acc st) -> cache_ok (fst (st_replay st)) -> e_writable en = true -> cf_test cf = false ->
  nth_error (st_acc st) i = Some a -> agreed o a -> addressed a p -> ~ expired (e_now en) a -> a_cycle a = None ->
  (forall t, access_wanted o t -> ports_allowed a t) -> (o_ip o <> $ "0.0.0.0" \/ a_require_src a = false) ->
  (forall data, carries cf p data -> ~ remembered (fst (st_replay st)) (packet_digest H data) /\ (forall fwd, closable H G p fwd data (st_acc st)) /\
     forall fwd j a' e, (j < i)%nat -> nth_error (st_acc st) j = Some a' -> ~ lets H G cf (e_now en) p fwd data a' (1 + Z.of_nat j) e) ->
  incoming_spa H G cf en p st = Ok (effs, st') ->
  exists m d fwd, wants v o m /\ effs = [Grant (1 + Z.of_nat i) d] /\ asks a p fwd m d /\ forwarded_read cf p fwd /\
    d_src d = o_ip o /\ access_wanted o (d_remain d).
Proof.
  intros HOK OK WO RO SEED NC ALL AM E A HS PO CO CK EW TS NT AG AD NX CY PA RS DATA I.
  destruct (client_delivers cf H v w o x sv s b p md) as (m & k & k' & hk & data & h2 & W & KF & KU & KH & CA & UN & AO & T & LEN & GE0 & _ & N & SH & SD); auto.
  { intros m W. apply (ALL m W). }
  { intros sc y SO KY. pose proof (ag_hmac o a AG) as Q. rewrite SO in Q. destruct Q as (R & _ & Q). split; auto. apply (Q y KY). }
  destruct (ALL m W) as (_ & TM & PS & SHORT). pose proof (SHORT _ LEN) as LT. destruct (DATA data CA) as (NR & CL & FIRST).
  assert (TY : s_type m <> 0).
  { rewrite (wn_type v o m W). unfold type_wanted. rewrite NC. destruct (o_nat_local o), (o_nat_access o), (0 <? o_timeout o); discriminate. }
  assert (GE : 140 <= zlen data).
  { apply GE0; auto. }
  assert (KO : key_opens H a data m).
  { split; [apply AG|]. split; [auto|]. exists k', h2. split; [exact (ag_key o a AG k k' KF KU)|]. split; auto.
    rewrite (ag_mode o a AG). pose proof (ag_hmac o a AG) as Q. unfold hmac_from in KH. destruct (o_hmac o) as [sc|].
    - destruct KH as (y & -> & KY & _). destruct Q as (_ & QT & Q). destruct (Q y KY) as [-> _]. rewrite QT. exact N.
    - rewrite KH in N. destruct Q as [-> ->]. exact N. }
  assert (OP : opens H G a data m) by (left; split; auto; lia).
  pose proof (sendable_received m SD) as RC.
  destruct (wn_msg v o m W) as (t & ME & _ & AC). specialize (AC NC).
  destruct (received_split m RC) as (ip & rest & ME' & (ia & TA) & NCM & _).
  assert (Q : o_ip o = ip /\ t = rest) by (apply cut_at; [apply (ok_ip o OK)|auto|congruence]). destruct Q as [<- <-].
  assert (PR : processed H cf (fst (st_replay st)) p data).
  { destruct T as (B & L & _). unfold processed, data_ok. ands; auto; try lia; try apply UN. apply b64_eq; auto. }
  destruct (first_stanza H G cf en p st effs st' data HOK PO CO CK EW PR CL I) as (fwd & FW & D).
  destruct (asks_exists a p fwd m (o_ip o) t PO ME (ex_intro _ ia TA) RS) as (d & AK & DR & DS).
  assert (LETS : lets H G cf (e_now en) p fwd data a (1 + Z.of_nat i) (Grant (1 + Z.of_nat i) d)).
  { split; [exact AD|]. split; [exact NX|]. exists m, d. split; [exact OP|]. split; [exact RC|]. split; [exact PS|]. split; [exact AK|]. unfold may. rewrite DR. ands; auto. }
  destruct D as [[_ NONE]|(i' & a' & e & NT' & -> & L' & FST)].
  - exfalso. exact (NONE i a _ NT LETS).
  - assert (i' = i).
    { destruct (Nat.lt_trichotomy i' i) as [LT'|[EQ|GT]]; auto; exfalso.
      - exact (FIRST fwd i' a' e LT' NT' L').
      - exact (FST i a _ GT NT LETS). }
    subst i'. rewrite NT in NT'. injection NT' as <-. destruct L' as (_ & _ & m' & d' & OP' & RC' & _ & AK' & MY).
    assert (m' = m) by (apply (opens_fun H G a data m' m OP' KO)). subst m'.
    destruct (as_split _ _ _ _ _ AK') as (SP & iz & TZ).
    assert (Q : o_ip o = d_src d' /\ t = d_remain d') by (apply cut_at; [apply (ok_ip o OK)|exact (text_no_comma _ _ TZ)|congruence]).
    destruct Q as [Q1 Q2]. destruct e as [k0 d0|k0 cmd who|k0 cmd]; cbn [may] in MY.
    + destruct MY as (-> & -> & _). exists m, d', fwd. rewrite <- Q2. ands; auto.
    + destruct MY as (_ & _ & T0 & _). contradiction.
    + destruct MY as (_ & cc & CC & _). congruence.
Qed.

(** ** The packet by itself *)
Lemma packet_shows H v o h md : hashes_ok H -> options_ok o -> world_ok v -> (o_nat_rand o = true -> v_seed v 1%nat = true) ->
  (o_command o <> [] -> ~ nat_asked o) -> (forall m, wants v o m -> fits (or_default (o_digest o) 3) m) -> api_mode (or_default (o_mode o) 2) md ->
  hmac_usable o -> make_packet H v o = Ok (Some h) ->
  exists m k k' hk data h2, wants v o m /\ key_from (o_server o) (o_key o) k /\ key_used (or_default (o_mode o) 2) k k' /\ hmac_from o k hk /\
    fko_get_spa_data h = Ok (FKO_SUCCESS, Some data) /\ packet_text data /\ sent_length o m (zlen data) /\
    fko_new_with_data H (Some data) (Some k') (or_default (o_mode o) 2) hk (match hk with None => 0 | Some _ => o_hmac_type o end) = Ok (FKO_SUCCESS, h2) /\
    shows h2 m.
Proof.
  intros HOK OK WO SEED CN FIT AM HM MP.
  destruct (client_packet H v o h HOK OK WO SEED CN MP) as (m & k & k' & hk & W & KF & KU & KH & _ & SEAL).
  assert (HM' : match hk with None => True | Some y => 1 <= zlen y /\ 1 <= o_hmac_type o <= 7 end).
  { unfold hmac_usable in HM. destruct (o_hmac o) as [sc|]; [|subst; exact I]. destruct KH as (y & -> & KY & _). destruct (HM sc y eq_refl KY) as [NE R]. split; auto.
    destruct y; [congruence|]. rewrite zlen_cons. pose proof (zlen_nonneg y). lia. }
  destruct (SEAL md (FIT m W) AM HM') as (pkt & h2 & G & N & SH & SD & pt & mac & PT & PL & PLL & PK & MAC).
  destruct (packet_form H _ md k' (v_salt v) pt mac _ hk HOK AM (wo_salt v WO) PL MAC) as [T LEN]. rewrite <- PK in T, LEN.
  exists m, k, k', hk, pkt, h2. ands; auto; try apply T.
  exists (zlen pt). split; auto. rewrite LEN. destruct (o_hmac o) as [sc|]; [destruct KH as (y & -> & _)|rewrite KH]; reflexivity.
Qed.

(** ** Ports *)
Lemma header_field_20 P l id ch s d seg : field 20 2 (ip_header P l id ch s d ++ seg) = field 0 2 seg /\ field 22 2 (ip_header P l id ch s d ++ seg) = field 2 2 seg.
Proof. split; reflexivity. Qed.
Lemma sent_ports w x server data s : route_ok w x -> x_proto x <> ICMP -> (x_proto x = HTTP -> x_proxy x = []) ->
  send_spa_packet w server data x = Ok (Some (Some s)) -> sent_to_port s (x_dport x) /\ (is_raw (x_proto x) = true -> sent_from_port s (x_sport x)).
Proof.
  intros RO NI HP E. destruct (is_raw (x_proto x)) eqn:RW.
  - destruct (raw_sent _ _ _ _ _ RO RW E) as (d & src & id & check & seg & sp & dp & -> & _ & _ & SG & PT & _).
    destruct (PT NI) as [-> ->]. cbn [sent_to_port sent_from_port]. destruct (header_field_20 (raw_number (x_proto x)) (20 + zlen seg) id check src d seg) as [-> ->].
    destruct SG as (h & _ & C). destruct (x_proto x); try discriminate RW; try congruence; cbn [raw_number] in C;
      destruct C as [(P & _ & A & B)|[(P & _ & A & B)|(P & _ & A & B)]]; try discriminate P; auto.
  - split; [|discriminate]. unfold send_spa_packet in E. destruct (x_proto x) eqn:XP; try discriminate RW.
    + destruct (x_test x); [discriminate|]. injection E as <-. reflexivity.
    + destruct (x_test x); [discriminate|]. injection E as <-. reflexivity.
    + unfold send_http in E. rewrite (HP eq_refl) in E. cbn [sbind ret] in E. destruct (x_test x); [discriminate|]. injection E as <-. reflexivity.
Qed.
Lemma client_ports H v w o x sv s b : hashes_ok H -> options_ok o -> world_ok v -> route_ok w x ->
  (o_nat_rand o = true -> v_seed v 1%nat = true) -> (o_command o <> [] -> ~ nat_asked o) ->
  x_proto x <> ICMP -> (x_proto x = HTTP -> x_proxy x = []) ->
  client H v w o x = Ok (mkEnding sv (Some s) b) ->
  exists m h c, make_packet H v o = Ok (Some h) /\ h = Live c /\ c_rand c = Some (s_rand m) /\ wants v o m /\
    (if x_rand_port x then sent_to_port s (port_of (s_rand m)) else sent_to_port s (x_dport x)) /\
    (is_raw (x_proto x) = true -> exists q, sent_from_port s q /\
       (if x_sport x =? 0 then high_port q /\ (x_rand_port x = false -> q = port_of (s_rand m)) else q = x_sport x)).
Proof.
  intros HOK OK WO RO SEED CN NI HP E.
  destruct (make_packet H v o) as [[h|]|] eqn:MP; [|unfold client in E; rewrite MP in E; discriminate|unfold client in E; rewrite MP in E; discriminate].
  destruct (client_packet H v o h HOK OK WO SEED CN MP) as (m & k & k' & hk & W & _ & _ & _ & (c & HC & CR) & _).
  destruct (client_sends H v w o x sv s b h c (s_rand m) WO MP HC CR (proj1 (wn_rand v o m W)) E) as (_ & _ & data & x' & G' & SV & SND & WAY & DP & NSP & SP).
  destruct WAY as (WP & _ & WS & WA & WX & WI & WC & _).
  assert (RO' : route_ok w x').
  { destruct RO as [R1 R2 R3 R4]. constructor; auto.
    - rewrite DP. destruct (x_rand_port x); auto. pose proof (port_of_range (s_rand m)). lia.
    - destruct (is_raw (x_proto x)) eqn:RW; [|rewrite NSP; auto]. destruct (SP eq_refl) as [[_ ->]|[_ ->]]; auto.
      match goal with |- 0 <= port_of ?r <= _ => pose proof (port_of_range r) end. lia.
    - rewrite WA. auto. }
  destruct (sent_ports w x' (o_server o) data s RO') as [T F]; auto; try congruence.
  { rewrite WP, WX. auto. }
  exists m, h, c. ands; auto.
  - rewrite DP in T. destruct (x_rand_port x); exact T.
  - intro RW. rewrite WP in F. exists (x_sport x'). split; [auto|]. destruct (SP RW) as [[N ->]|[Z0 ->]].
    + destruct (Z.eqb_spec (x_sport x) 0); [contradiction|reflexivity].
    + rewrite Z0. cbn [Z.eqb]. split; [apply port_of_range|]. intros ->. reflexivity.
Qed.
