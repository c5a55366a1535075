(** Proofs about the client: the text of the packet. *)
From Verif Require Import Bytes M_accfile M_base64 M_util M_message M_codec M_cipher M_ctx M_client M_send S_base64 S_text S_codec S_cipher S_ctx S_conf S_cycle S_client S_incoming S_packet S_send
  P_bytes P_base64 P_util P_util2 P_message P_codec P_cycle P_ctx P_ctx2 P_ctx3 P_ctx4 P_ctx5 P_ctx6 P_client P_client2 P_client3 P_client4 P_client5.
From Coq Require Import Init.Byte List ZArith Bool Lia.
Import ListNotations.
Open Scope Z_scope.

Local Ltac ands := repeat match goal with |- _ /\ _ => split end.

Lemma sealed_start H mode k salt pt : 1 <= zlen salt -> exists x r, P_ctx3.sealed H mode k salt pt = $ "U2FsdGVkX1" ++ x :: r /\ In x ($ "89+/").
Proof.
  intro S. destruct salt as [|s0 salt]; [rewrite zlen_nil in S; lia|].
  unfold P_ctx3.sealed, rij_encrypt. destruct (rij_key_iv H mode k (s0 :: salt)) as (kk, iv).
  set (rest := block_encrypt _ _ _ _ _). clearbody rest. unfold b64_text.
  change ($ "Salted__" ++ (s0 :: salt) ++ rest) with ("S"%byte :: "a"%byte :: "l"%byte :: "t"%byte :: "e"%byte :: "d"%byte :: "_"%byte :: "_"%byte :: s0 :: salt ++ rest).
  cbn [rfc4648]. set (y := sextet_char (bv "_"%byte mod 16 * 4 + bv s0 / 64)).
  assert (Y : y = "8"%byte \/ y = "9"%byte \/ y = "+"%byte \/ y = "/"%byte).
  { unfold y. pose proof (bv_range s0). assert (Q : bv s0 / 64 = 0 \/ bv s0 / 64 = 1 \/ bv s0 / 64 = 2 \/ bv s0 / 64 = 3) by lia.
    destruct Q as [-> | [-> | [-> | ->]]]; auto. }
  set (z := sextet_char (bv s0 mod 64)). set (w := rfc4648 _).
  assert (NE : negb (beq y "="%byte) = true) by (destruct Y as [-> | [-> | [-> | ->]]]; reflexivity).
  clearbody y z w.
  exists y, (filter (fun c => negb (beq c "="%byte)) (z :: w)). split.
  - change (sextet_char (bv "S"%byte / 4)) with "U"%byte. cbn [filter]. rewrite NE. reflexivity.
  - destruct Y as [-> | [-> | [-> | ->]]]; vm_compute; tauto.
Qed.

Lemma mac_length_of t : 1 <= t <= 7 -> b64_len_of t = mac_length t.
Proof. intro R. assert (t = 1 \/ t = 2 \/ t = 3 \/ t = 4 \/ t = 5 \/ t = 6 \/ t = 7) by lia. intuition (subst; reflexivity). Qed.
Lemma packet_form H mode md k salt pt mac ht hk : hashes_ok H -> api_mode mode md -> zlen salt = 8 -> zlen pt <= 271 ->
  mac_part H ht hk (P_ctx3.sealed H mode k salt pt) mac ->
  packet_text (zdrop 10 (P_ctx3.sealed H mode k salt pt ++ mac)) /\
  zlen (zdrop 10 (P_ctx3.sealed H mode k salt pt ++ mac)) = body_length (zlen pt) + mac_length ht.
Proof.
  intros OK A S8 L MP. destruct (sealed_start H mode k salt pt ltac:(lia)) as (x & r & SP & IX).
  pose proof (sealed_len H mode md k salt pt OK A S8) as SL. pose proof (sealed_chars H mode k salt pt) as SC.
  rewrite SP in *. assert (D : zdrop 10 (($ "U2FsdGVkX1" ++ x :: r) ++ mac) = (x :: r) ++ mac) by reflexivity. rewrite D.
  rewrite zlen_app in SL. change (zlen ($ "U2FsdGVkX1")) with 10 in SL.
  apply Forall_app in SC as [_ SC].
  assert (MM : Forall is_b64_char mac /\ zlen mac = mac_length ht /\ zlen mac <= 86).
  { destruct MP as [[-> ->]|(k0 & hh & _ & _ & N & ->)]; [ands; [constructor|reflexivity|vm_compute; congruence]|].
    pose proof (hash_number_range _ _ _ N). rewrite (mac_text_len H) by auto. ands; [|apply mac_length_of; auto|apply b64_len_of_range].
    unfold mac_text. rewrite <- strip_text. apply b64_stripped_chars. }
  destruct MM as (M1 & M2 & M3). pose proof (zlen_nonneg pt).
  assert (BL : zlen (x :: r) = body_length (zlen pt)) by (unfold body_length; lia).
  assert (BB : body_length (zlen pt) <= 374) by (unfold body_length; Z.div_mod_to_equations; lia).
  split; [|rewrite zlen_app; lia]. split; [apply Forall_app; auto|]. split; [rewrite zlen_app; lia|]. exists x, (r ++ mac). auto.
Qed.

(** ** The shortest message *)
Lemma enc64_ge s n : n <= zlen s -> (4 * n + 2) / 3 <= zlen (enc64 s).
Proof. intro L. rewrite enc64_len. Z.div_mod_to_equations; lia. Qed.
Lemma c_number_len s v : c_number s v -> 1 <= zlen s.
Proof. intros (N & _). destruct s; [contradiction|]. rewrite zlen_cons. pose proof (zlen_nonneg s). lia. Qed.
Lemma ipv4_len s a b c d : ipv4_text s a b c d -> 7 <= zlen s.
Proof.
  intros (A & B & C & D & -> & N1 & N2 & N3 & N4 & _). apply c_number_len in N1, N2, N3, N4. rewrite !zlen_app.
  change (zlen ["."%byte]) with 1. lia.
Qed.
Lemma access_len msg : access_request msg -> 13 <= zlen msg.
Proof.
  intros (ip & items & a & b & c & d & -> & NE & IP & _ & F). apply ipv4_len in IP. destruct items as [|it items]; [contradiction|].
  apply Forall_inv in F as (p & ds & P & EI & L & _).
  assert (PL : zlen p = 3) by (destruct P as [-> | ->]; reflexivity).
  assert (IL : 5 <= zlen it) by (rewrite EI, !zlen_app, PL; change (zlen ["/"%byte]) with 1; lia). clear EI NE.
  assert (JL : zlen it <= zlen (join [","%byte] (it :: items))).
  { destruct items as [|i2 items]; [cbn [join]; lia|].
    change (join [","%byte] (it :: i2 :: items)) with (it ++ [","%byte] ++ join [","%byte] (i2 :: items)). rewrite !zlen_app. pose proof (zlen_nonneg (join [","%byte] (i2 :: items))). change (zlen [","%byte]) with 1. lia. }
  change (join [","%byte] (ip :: it :: items)) with (ip ++ [","%byte] ++ join [","%byte] (it :: items)). rewrite !zlen_app. change (zlen [","%byte]) with 1. lia.
Qed.
Lemma dec_time_ge n : 1000000000 <= n < 2147483648 -> 10 <= zlen (dec n).
Proof.
  intro R. destruct (dec_spec n ltac:(lia)) as (D & V & _). destruct (Z.ltb_spec (zlen (dec n)) 10) as [L|]; [|lia]. exfalso.
  pose proof (decimal_bound (dec n) D) as B. rewrite V in B.
  assert (10 ^ zlen (dec n) <= 10 ^ 9) by (apply Z.pow_le_mono_r; lia). change (10 ^ 9) with 1000000000 in *. lia.
Qed.
Lemma shortest_access H dt m pt : hashes_ok H -> sendable m -> s_type m <> 0 -> 1000000000 <= s_time m -> s_version m = $ "3.0.0" ->
  plaintext_of H dt m = Some pt -> 80 <= zlen pt.
Proof.
  intros OK SD T0 TM VE PT. unfold plaintext_of in PT. apply obind_inv in PT as (t & ET & PT). apply obind_inv in PT as (h & HH & PT). injection PT as <-.
  apply hash_of_number in HH. rewrite zlen_app, zlen_cons, (digest_b64_len H dt) by auto.
  assert (BL : 22 <= (4 * hash_len dt + 2) / 3) by (destruct HH; vm_compute; congruence).
  assert (TB : t = enc_body m).
  { unfold encode_spa in ET. apply obind_inv in ET as (x1 & G1 & E). apply obind_inv in E as (x2 & G2 & E).
    apply obind_inv in E as (t2 & T2 & E). apply obind_inv in E as (x3 & G3 & E). injection E as <-. rewrite (proj1 (encode_text_body m SD)) in T2. injection T2 as <-. reflexivity. }
  subst t. destruct SD as [[R1 _] [U1 _] TI _ TY (M1 & _) _ _ _].
  replace (s_type m =? 0) with false in M1 by lia. apply access_len in M1.
  assert (UL : 1 <= zlen (s_user m)). { destruct (s_user m) as [|b l]; [destruct U1; contradiction|]. rewrite zlen_cons. pose proof (zlen_nonneg l). lia. }
  pose proof (enc64_ge _ _ M1) as E1. pose proof (enc64_ge _ _ UL) as E2. change ((4 * 13 + 2) / 3) with 18 in E1. change ((4 * 1 + 2) / 3) with 2 in E2.
  pose proof (dec_time_ge (s_time m) ltac:(lia)) as E3.
  assert (E4 : 1 <= zlen (dec (s_type m))) by (rewrite (dec_small (s_type m)) by lia; lia).
  unfold enc_body. rewrite VE. rewrite !zlen_app. repeat (rewrite !zlen_cons || rewrite !zlen_app).
  change (zlen ($ "3.0.0")) with 5. pose proof (zlen_nonneg (enc_tail m)). lia.
Qed.
