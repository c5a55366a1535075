(** Proofs about the client: how the packet is sent and arrives. *)
From Verif Require Import Bytes M_accfile M_base64 M_util M_message M_codec M_cipher M_ctx M_access M_replay M_incoming M_packet M_client S_base64 S_text S_codec S_cipher S_ctx S_access S_conf S_cycle M_send S_client S_incoming S_packet S_send
  P_bytes P_base64 P_util P_util2 P_message P_codec P_cycle P_ctx P_ctx2 P_ctx3 P_ctx4 P_ctx5 P_ctx6 P_packet P_client P_client2 P_client3 P_client4 P_client5 P_send.
From Coq Require Import Init.Byte List ZArith Bool Lia.
Import ListNotations.
Open Scope Z_scope.

Local Ltac ands := repeat match goal with |- _ /\ _ => split end.

(** ** The ports, and what is sent *)
Lemma rand_port_ok H v i c r p h' : c_rand c = Some r -> all_digits r -> rand_port H v i (Live c) = Ok (Some (p, h')) ->
  p = port_of r /\ exists c', h' = Live c' /\ get_spa_data c' = get_spa_data c /\ c_rand c' = Some (rand_digits (v_rand v i)).
Proof.
  intros R D E. unfold rand_port in E. rewrite (get_rand_port_live H v i c r R D) in E. destruct (v_seed v i); [|discriminate]. injection E as <- <-.
  split; auto. eexists. split; [reflexivity|]. split; reflexivity.
Qed.
(** Routes that differ in their ports only *)
Definition same_way (x x' : route) : Prop :=
  x_proto x' = x_proto x /\ x_rand_port x' = x_rand_port x /\ x_spoof x' = x_spoof x /\ x_agent x' = x_agent x /\ x_proxy x' = x_proxy x /\
  x_icmp_type x' = x_icmp_type x /\ x_icmp_code x' = x_icmp_code x /\ x_test x' = x_test x /\ x_save x' = x_save x.
Lemma choose_ports_ok H v x c r x' h' : world_ok v -> c_rand c = Some r -> all_digits r -> choose_ports H v x (Live c) = Ok (Some (x', h')) ->
  same_way x x' /\ x_dport x' = (if x_rand_port x then port_of r else x_dport x) /\
  (exists c', h' = Live c' /\ get_spa_data c' = get_spa_data c) /\
  (is_raw (x_proto x) = false -> x_sport x' = x_sport x) /\
  (is_raw (x_proto x) = true -> (x_sport x <> 0 /\ x_sport x' = x_sport x) \/
     (x_sport x = 0 /\ x_sport x' = port_of (if x_rand_port x then rand_digits (v_rand v 2) else r))).
Proof.
  intros WO R D E. unfold choose_ports in E. apply sbind_ok in E as ([x1 h1] & E1 & E2).
  assert (S1 : same_way x x1 /\ x_dport x1 = (if x_rand_port x then port_of r else x_dport x) /\ x_sport x1 = x_sport x /\
    exists c1, h1 = Live c1 /\ get_spa_data c1 = get_spa_data c /\ c_rand c1 = Some (if x_rand_port x then rand_digits (v_rand v 2) else r)).
  { destruct (x_rand_port x) eqn:RP.
    - apply sbind_ok in E1 as ([p h2] & P & E1). injection E1 as <- <-. destruct (rand_port_ok _ _ _ _ _ _ _ R D P) as (-> & c' & -> & G & C).
      split; [unfold same_way; cbn; auto 10|]. split; [reflexivity|]. split; [reflexivity|]. exists c'. auto.
    - injection E1 as <- <-. split; [unfold same_way; auto 10|]. ands; auto. exists c. auto. }
  destruct S1 as (W & DP & SP & c1 & -> & G & C).
  assert (D1 : all_digits (if x_rand_port x then rand_digits (v_rand v 2) else r)).
  { destruct (x_rand_port x); auto. apply rand_value_digits. intro i. pose proof (wo_rand v WO 2%nat i). lia. }
  assert (PX : x_proto x1 = x_proto x) by apply W. rewrite PX, SP in E2.
  destruct (is_raw (x_proto x)) eqn:RW; cbn [andb] in E2; [destruct (Z.eqb_spec (x_sport x) 0) as [Z0|NZ]|].
  - apply sbind_ok in E2 as ([p h2] & P & E2). injection E2 as <- <-. destruct (rand_port_ok _ _ _ _ _ _ _ C D1 P) as (-> & c' & -> & G' & _).
    ands; try apply W; auto; [exists c'; split; congruence|discriminate].
  - injection E2 as <- <-. ands; try apply W; auto. exists c1. auto.
  - injection E2 as <- <-. ands; try apply W; auto; [exists c1; auto|discriminate].
Qed.
Lemma test_sends_nothing w server data x s : x_test x = true -> send_spa_packet w server data x = Ok (Some s) -> s = None.
Proof.
  intros T E. unfold send_spa_packet, send_http in E. rewrite T in E. destruct (x_proto x); try (injection E as <-; reflexivity).
  - destruct (source_addr x), (w_addr w server); try discriminate. injection E as <-. reflexivity.
  - destruct (source_addr x), (w_addr w server); try discriminate. injection E as <-. reflexivity.
  - destruct (source_addr x), (w_addr w server); try discriminate. injection E as <-. reflexivity.
  - apply sbind_ok in E as ([[hh pp] rq] & _ & E). injection E as <-. reflexivity.
Qed.
Lemma client_sends H v w o x sv s b h c r : world_ok v -> make_packet H v o = Ok (Some h) -> h = Live c -> c_rand c = Some r -> all_digits r ->
  client H v w o x = Ok (mkEnding sv (Some s) b) ->
  b = true /\ x_test x = false /\ exists data x', get_spa_data c = (FKO_SUCCESS, Some data) /\
    (sv = if x_save x then Some (data ++ [x0a]) else None) /\
    send_spa_packet w (o_server o) data x' = Ok (Some (Some s)) /\ same_way x x' /\
    x_dport x' = (if x_rand_port x then port_of r else x_dport x) /\ (is_raw (x_proto x) = false -> x_sport x' = x_sport x) /\
    (is_raw (x_proto x) = true -> (x_sport x <> 0 /\ x_sport x' = x_sport x) \/
       (x_sport x = 0 /\ x_sport x' = port_of (if x_rand_port x then rand_digits (v_rand v 2) else r))).
Proof.
  intros WO MP -> R D E. unfold client in E. rewrite MP in E. unfold transmit, fko_get_spa_data in E.
  destruct (get_spa_data c) as [e d] eqn:G. destruct (choose_ports H v x (Live c)) as [[[x' h']|]|] eqn:CP; [| |discriminate].
  2: { destruct (x_save x && ok e); discriminate. }
  destruct (choose_ports_ok _ _ _ _ _ _ _ WO R D CP) as (W & DP & (c' & -> & G') & NS & SP). rewrite G', G in E.
  destruct e; try discriminate. destruct d as [data|]; [|discriminate].
  destruct (send_spa_packet w (o_server o) data x') as [[s'|]|] eqn:S; try discriminate.
  cbn [ok] in E. rewrite andb_true_r in E. cbn [option_map] in E.
  assert (Q : s' = Some s /\ b = true /\ sv = if x_save x then Some (data ++ [x0a]) else None) by (injection E as <- <- <-; auto).
  destruct Q as (-> & -> & SV). split; auto. split.
  - destruct (x_test x) eqn:T; auto. assert (T' : x_test x' = true) by (destruct W as (_ & _ & _ & _ & _ & _ & _ & W & _); congruence).
    apply (test_sends_nothing _ _ _ _ _ T') in S. discriminate.
  - exists data, x'. ands; auto; apply W.
Qed.

(** ** IP packets *)
Lemma skipn_nth {A} (l : list A) i : skipn i l = match nth_error l i with Some x => x :: skipn (S i) l | None => [] end.
Proof. revert i. induction l as [|a l IH]; intros [|i]; cbn [skipn nth_error]; auto. rewrite IH. destruct (nth_error l i); reflexivity. Qed.
Lemma field_ext i n : forall a b, (forall j, (i <= j < i + n)%nat -> nth_error a j = nth_error b j) -> field i n a = field i n b.
Proof.
  unfold field. intros a b E. f_equal. revert i E. induction n as [|n IH]; intros i E; [reflexivity|].
  rewrite (skipn_nth a i), (skipn_nth b i), (E i ltac:(lia)). destruct (nth_error b i); [|reflexivity]. cbn [firstn]. f_equal. apply IH. intros j J. apply E. lia.
Qed.
Lemma skipn_ext {A} n : forall (a b : list A), (forall j, (n <= j)%nat -> nth_error a j = nth_error b j) -> skipn n a = skipn n b.
Proof.
  intros a b E. assert (X : forall k (l l' : list A), (forall j, nth_error l (k + j) = nth_error l' (k + j)) -> skipn k l = skipn k l').
  { induction k as [|k IH].
    - cbn [skipn Nat.add]. induction l as [|x l IHl]; intros [|y l'] F; auto.
      + specialize (F 0%nat). discriminate.
      + specialize (F 0%nat). discriminate.
      + f_equal; [specialize (F 0%nat); cbn in F; congruence|]. apply IHl. intro j. exact (F (S j)).
    - intros [|x l] [|y l'] F; cbn [skipn]; auto.
      + symmetry. apply skipn_all2. specialize (F 0%nat). cbn in F. rewrite Nat.add_0_r in F. apply nth_error_None. auto.
      + apply skipn_all2. specialize (F 0%nat). cbn in F. rewrite Nat.add_0_r in F. apply nth_error_None. auto. }
  apply X. intro j. apply E. lia.
Qed.
Lemma be16_field n r : 0 <= n < 65536 -> field 0 2 (be16 n ++ r) = n.
Proof.
  intro R. unfold field, be16. cbn [skipn app firstn fold_left]. rewrite !bv_zb. Z.div_mod_to_equations; lia.
Qed.

Lemma app_inj_len {A} (a b c d : list A) : a ++ b = c ++ d -> length a = length c -> a = c /\ b = d.
Proof.
  revert c. induction a as [|x a IH]; intros [|y c] E L; cbn in *; try discriminate; auto. injection E as -> E. destruct (IH c E ltac:(lia)) as [-> ->]. auto.
Qed.
Lemma datagram_fun ip i i' d d' : datagram ip i d -> datagram ip i' d' -> i = i' /\ d = d'.
Proof.
  intros (h & seg & E & L & _ & _ & P1 & P2 & P3 & S) (h' & seg' & E' & L' & _ & _ & P1' & P2' & P3' & S').
  assert (Q : h = h' /\ seg = seg') by (apply app_inj_len; [congruence|unfold zlen in *; lia]). destruct Q as [<- <-].
  destruct i as [a1 a2 a3 a4 a5], i' as [b1 b2 b3 b4 b5]. cbn [p_proto p_src p_dst p_sport p_dport] in *.
  destruct S as (x & F & S), S' as (x' & F' & S').
  assert (XL : zlen x = zlen x') by lia.
  assert (Q : x = x' /\ d = d') by (apply app_inj_len; [congruence|unfold zlen in *; lia]). destruct Q as [<- <-]. split; [|reflexivity].
  assert (a1 = b1) by congruence. subst a1. f_equal; try congruence; lia.
Qed.

Lemma wire_datagram proto id check s d seg ip data sport dport : 0 <= proto < 256 -> 0 <= s < 4294967296 -> 0 <= d < 4294967296 -> 20 + zlen seg < 65536 ->
  on_wire (ip_header proto (20 + zlen seg) id check s d ++ seg) ip -> segment proto seg sport dport data ->
  exists src, (s <> 0 -> src = s) /\ datagram ip (mkPkt proto src sport d dport) data.
Proof.
  intros RP RS RD LS (W1 & W2 & W3 & W4) SG.
  set (raw := ip_header proto (20 + zlen seg) id check s d ++ seg) in *.
  assert (RL : zlen raw = 20 + zlen seg) by (unfold raw; rewrite zlen_app; reflexivity).
  assert (F : forall i n, (i + n <= 2 \/ 6 <= i /\ i + n <= 10 \/ 16 <= i)%nat -> field i n ip = field i n raw).
  { intros i n C. apply field_ext. intros j J. apply W3; lia. }
  assert (F0 : field 0 1 ip = 69) by (rewrite F by lia; reflexivity).
  assert (F9 : field 9 1 ip = proto) by (rewrite F by lia; unfold raw, field, ip_header; cbn [skipn app firstn fold_left le16]; rewrite bv_zb; Z.div_mod_to_equations; lia).
  assert (B4 : forall n, 0 <= n < 4294967296 -> (((0 * 256 + bv (zb (n / 65536 / 256))) * 256 + bv (zb (n / 65536))) * 256 + bv (zb (n / 256))) * 256 + bv (zb n) = n).
  { intros n R. rewrite !bv_zb. Z.div_mod_to_equations; lia. }
  assert (B4' : forall n, 0 <= n < 4294967296 -> (((0 * 256 + bv (zb (n / 65536 / 256))) * 256 + bv (zb (n / 65536))) * 256 + bv (zb (n mod 65536 / 256))) * 256 + bv (zb (n mod 65536)) = n).
  { intros n R. rewrite !bv_zb. Z.div_mod_to_equations; lia. }
  assert (F16 : field 16 4 ip = d).
  { rewrite F by lia. unfold raw, field, ip_header, be32, be16. cbn [skipn app firstn fold_left le16]. apply B4; auto. }
  assert (R12 : field 12 4 raw = s).
  { unfold raw, field, ip_header, be32, be16. cbn [skipn app firstn fold_left le16]. apply B4; auto. }
  assert (SK : skipn 20 ip = seg).
  { transitivity (skipn 20 raw); [|reflexivity]. apply skipn_ext. intros j J. apply W3; lia. }
  exists (field 12 4 ip). split; [intro N; rewrite W4; congruence|].
  exists (firstn 20 ip), seg. cbn [p_proto p_src p_dst p_sport p_dport].
  assert (HL : zlen (firstn 20 ip) = 20). { unfold zlen in *. rewrite firstn_length. pose proof (zlen_nonneg seg). unfold zlen in *. lia. }
  ands; auto.
  - rewrite <- SK. symmetry. apply firstn_skipn.
  - rewrite F0, HL. reflexivity.
  - lia.
  - lia.
Qed.
