(** What raw packets look like on the wire, and failures of the client. *)
From Verif Require Import Bytes M_accfile M_base64 M_util M_message M_codec M_cipher M_ctx M_access M_replay M_cycle M_incoming M_packet M_codec M_client S_base64 S_text S_codec S_cipher S_ctx S_access S_conf S_cycle M_send S_client S_incoming S_packet S_send
  P_bytes P_util P_access P_client2 P_client4 P_client5 P_send P_send2 P_send3 P_send4.
From Coq Require Import Init.Byte List ZArith Bool Lia.
Import ListNotations.
Open Scope Z_scope.
Ltac ands := repeat match goal with |- _ /\ _ => split end.

Lemma client_made H v w o x sv s b : client H v w o x = Ok (mkEnding sv (Some s) b) -> exists h, make_packet H v o = Ok (Some h).
Proof. intro E. unfold client in E. destruct (make_packet H v o) as [[h|]|]; try discriminate. eauto. Qed.
Lemma wire_segment proto id check s d seg ip : on_wire (ip_header proto (20 + zlen seg) id check s d ++ seg) ip -> skipn 20 ip = seg.
Proof.
  intros (L & _ & F & _). transitivity (skipn 20 (ip_header proto (20 + zlen seg) id check s d ++ seg)); [|reflexivity].
  apply skipn_ext. intros i I. apply F; lia.
Qed.
Lemma text_aton t a : text_of_addr t a -> inet_aton t = Some a.
Proof. intros (x & y & z & u & T & _ & <-). destruct (inet_aton_text _ _ _ _ _ T) as [E _]. rewrite E. reflexivity. Qed.

Lemma raw_packet H v w o x sv s b : hashes_ok H -> options_ok o -> world_ok v -> route_ok w x ->
  (o_nat_rand o = true -> v_seed v 1%nat = true) -> (o_command o <> [] -> ~ nat_asked o) -> is_raw (x_proto x) = true ->
  client H v w o x = Ok (mkEnding sv (Some s) b) ->
  exists h data d raw, make_packet H v o = Ok (Some h) /\ fko_get_spa_data h = Ok (FKO_SUCCESS, Some data) /\ s = Raw d raw /\ w_addr w (o_server o) = Some d /\
    (zlen data <= 1500 -> forall ip, on_wire raw ip -> exists src sp dp, datagram ip (mkPkt (raw_number (x_proto x)) src sp d dp) data /\
      (forall a, text_of_addr (x_spoof x) a -> a <> 0 -> src = a) /\
      (x_proto x = ICMP -> sum_ok (skipn 20 ip) /\ field 20 1 ip = x_icmp_type x mod 256 /\ field 21 1 ip = x_icmp_code x mod 256)).
Proof.
  intros HOK OK WO RO SEED CN RW E. destruct (client_made _ _ _ _ _ _ _ _ E) as (h & MP).
  destruct (client_packet H v o h HOK OK WO SEED CN MP) as (m & k & k' & hk & W & _ & _ & _ & (c & HC & CR) & _).
  destruct (client_sends H v w o x sv s b h c (s_rand m) WO MP HC CR (proj1 (wn_rand v o m W)) E) as (_ & _ & data & x' & G' & SV & SND & WAY & DP & NSP & SP).
  destruct WAY as (WP & _ & WS & WA & WX & WI & WC & _).
  assert (RO' : route_ok w x').
  { destruct RO as [R1 R2 R3 R4]. constructor; auto.
    - rewrite DP. destruct (x_rand_port x); auto. pose proof (port_of_range (s_rand m)). lia.
    - destruct (SP RW) as [[_ ->]|[_ ->]]; auto. pose proof (port_of_range (if x_rand_port x then rand_digits (v_rand v 2) else s_rand m)). lia.
    - rewrite WA. auto. }
  assert (RW' : is_raw (x_proto x') = true) by (rewrite WP; auto).
  destruct (raw_sent _ _ _ _ _ RO' RW' SND) as (d & src & id & check & seg & sp & dp & -> & AD & SA & SG & _ & IC & SR & DR).
  exists h, data, d. eexists. split; [auto|]. split. { subst h. cbn. rewrite G'. reflexivity. } split; [reflexivity|]. split; [auto|].
  intros DL ip OW. pose proof (segment_len _ _ _ _ _ SG). assert (SL : 20 + zlen seg < 65536) by lia.
  destruct (wire_datagram _ _ _ _ _ _ _ _ _ _ (raw_number_range (x_proto x')) SR DR SL OW SG) as (src' & SE & DG').
  rewrite WP in DG'. exists src', sp, dp. split; [exact DG'|]. split.
  - intros a TA NZ. apply text_aton in TA. destruct (source_addr_range _ _ SA) as [_ Q]. rewrite WS in Q.
    assert (src = a). { destruct (x_spoof x) as [|c0 r0] eqn:XS; [discriminate TA|]. assert (Some src = Some a) by (rewrite <- Q, TA by discriminate; reflexivity). congruence. }
    subst src. auto.
  - intro PI. rewrite <- WP in PI. pose proof (IC PI) as SEQ.
    pose proof (wire_segment _ _ _ _ _ _ _ OW) as SK. split; [rewrite SK, SEQ; apply icmp_sum_ok; lia|].
    assert (FF : forall i n, field (20 + i) n ip = field i n seg).
    { intros i n. unfold field. rewrite <- SK. rewrite skipn_skipn. replace (i + 20)%nat with (20 + i)%nat by lia. reflexivity. }
    pose proof (FF 0%nat 1%nat) as F0. pose proof (FF 1%nat 1%nat) as F1. cbn [Nat.add] in F0, F1. rewrite F0, F1, SEQ, <- WI, <- WC.
    split; [change (0 * 256 + bv (zb (x_icmp_type x')) = x_icmp_type x' mod 256)|change (0 * 256 + bv (zb (x_icmp_code x')) = x_icmp_code x' mod 256)]; rewrite bv_zb; lia.
Qed.
