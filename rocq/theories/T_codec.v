(** Theorems for C03 and C04: the SPA message text. *)
From Verif Require Import Bytes M_base64 M_util M_message M_codec S_base64 S_text S_codec
  P_bytes P_util P_message P_codec.
From Coq Require Import Init.Byte List ZArith Bool Lia.
Import ListNotations.
Open Scope Z_scope.

(** ** C03 encode/decode round trip *)
(** Missing for the full property: the setters accept more values than [sendable] allows;
    the refutations below show that the remaining ones are not all received. *)
Theorem C03_round_trip_partial : forall H t h m,
  hashes_ok H -> hash_number H t h -> sendable m ->
  exists text t' h',
    encode_spa m = Some text /\
    plaintext_of H t m = Some (text ++ ":"%byte :: b64_text (h text)) /\
    decode_spa H (text ++ ":"%byte :: b64_text (h text)) = Some (m, t', b64_text (h text)) /\
    hash_number H t' h' /\ b64_text (h' text) = b64_text (h text) /\ (t <= 5 -> t' = t).
Proof. exact codec_round_trip'. Qed.
Print Assumptions C03_round_trip_partial.

(** An instance of the hash functions, for examples only. *)
Definition toy_hash (n : nat) (d : bytes) : bytes := 
  firstn n (zb (fold_left (fun a c => (a * 31 + bv c) mod 251) d 7) :: map (fun c => zb (bv c + Z.of_nat n)) (rev d) ++ repeat x07 n).
Definition toy : hashes := mkHashes (toy_hash 16) (toy_hash 20) (toy_hash 32) (toy_hash 48) (toy_hash 64)
  (fun d => rev (toy_hash 32 d)) (fun d => rev (toy_hash 64 d)).
Example toy_ok : hashes_ok toy.
Proof.
  assert (T : forall n d, zlen (toy_hash n d) = Z.of_nat n).
  { intros. unfold zlen, toy_hash. rewrite firstn_length. cbn [length]. rewrite app_length, repeat_length. lia. }
  intro d. cbn [h_md5 h_sha1 h_sha256 h_sha384 h_sha512 h_sha3_256 h_sha3_512 toy].
  unfold zlen. rewrite !rev_length. fold (zlen (toy_hash 32 d)). fold (zlen (toy_hash 64 d)).
  rewrite !T. repeat split; apply T.
Qed.

Ltac digits := repeat constructor; vm_compute; congruence.
Ltac ipv4 a b c d := exists a, b, c, d;
  split; [reflexivity|]; repeat (split; [split; [discriminate|split; [digits|left; split; [discriminate|reflexivity]]]|]);
  vm_compute; repeat split; congruence.
Ltac chars := repeat constructor; vm_compute; intuition congruence.
Ltac nonul := apply no_nulb_iff; vm_compute; reflexivity.

Definition m_timed_nat : spa :=
  mkSpa ($ "1234567890123456") ($ "alice") 1700000000 ($ "3.0.0") 4 ($ "1.2.3.4,tcp/22,udp/53")
    (Some ($ "192.168.1.2,22")) (Some ($ "crypt,secret")) 60.
Lemma access_ex : access_request ($ "1.2.3.4,tcp/22,udp/53").
Proof.
  exists ($ "1.2.3.4"), [$ "tcp/22"; $ "udp/53"], 1, 2, 3, 4.
  split; [reflexivity|]. split; [discriminate|]. split; [ipv4 ($ "1") ($ "2") ($ "3") ($ "4")|]. split; [vm_compute; congruence|].
  constructor; [|constructor; [|constructor]].
  - exists ($ "tcp"), ($ "22"). split; [auto|]. split; [reflexivity|]. split; [vm_compute; split; congruence|].
    split; [digits|vm_compute; split; congruence].
  - exists ($ "udp"), ($ "53"). split; [auto|]. split; [reflexivity|]. split; [vm_compute; split; congruence|].
    split; [digits|vm_compute; split; congruence].
Qed.
Lemma nat_ex : nat_request ($ "192.168.1.2,22").
Proof.
  exists ($ "192.168.1.2"), ($ "22"). split; [reflexivity|]. split; [vm_compute; congruence|].
  split; [intros c I J; cbn in I, J; intuition (subst; discriminate)|].
  split; [vm_compute; split; congruence|]. split; [digits|vm_compute; split; congruence].
Qed.
Example C03_ex : sendable m_timed_nat /\ hash_number toy 4 (h_sha384 toy) /\
  exists p, plaintext_of toy 4 m_timed_nat = Some p /\ exists dg, decode_spa toy p = Some (m_timed_nat, 4, dg).
Proof.
  split; [|split; [constructor|eexists; split; [vm_compute; reflexivity|eexists; vm_compute; reflexivity]]].
  constructor; cbn [m_timed_nat s_rand s_user s_time s_version s_type s_msg s_nat s_auth s_timeout].
  - split; [reflexivity|]. split; chars.
  - split; [split; [discriminate|chars]|vm_compute; congruence].
  - lia.
  - split; [vm_compute; split; congruence|split; chars].
  - lia.
  - split; [exact access_ex|]. split; [nonul|vm_compute; congruence].
  - split; [right; left; reflexivity|]. split; [exact nat_ex|]. split; [nonul|vm_compute; congruence].
  - split; [vm_compute; split; congruence|nonul].
  - split; [lia|]. split; [intros _; right; left; reflexivity|lia].
Qed.

(** Each of the following values is accepted by the setters and by the encoder, for a
    reason that [sendable] excludes, and does not come back. *)
Definition base_msg (user : bytes) (time ty : Z) (msg : bytes) (nat auth : option bytes) (timeout : Z) : spa :=
  mkSpa ($ "1234567890123456") user time ($ "3.0.0") ty msg nat auth timeout.
Definition received_as (m : spa) (r : option (spa * Z * bytes)) : Prop :=
  exists p, plaintext_of toy 3 m = Some p /\ decode_spa toy p = r.

Lemma alice_ok : username_text ($ "alice") /\ zlen ($ "alice") <= 63.
Proof. split; [split; [discriminate|chars]|vm_compute; congruence]. Qed.
Lemma access_ok : access_request ($ "1.2.3.4,tcp/22,udp/53") /\ no_nul ($ "1.2.3.4,tcp/22,udp/53") /\ zlen ($ "1.2.3.4,tcp/22,udp/53") < 256.
Proof. split; [exact access_ex|]. split; [nonul|reflexivity]. Qed.
Ltac st := constructor;
    cbn [base_msg s_rand s_user s_time s_version s_type s_msg s_nat s_auth s_timeout];
    [ split; [reflexivity|nonul] | try exact alice_ok | lia | reflexivity | lia | try exact access_ok
    | try exact I | try exact I | lia ].

(** A user name of 49 to 63 characters. *)
Theorem C03_long_username_refuted : exists m, settable m /\ received_as m None.
Proof.
  exists (base_msg (repeat "a"%byte 49) 1700000000 1 ($ "1.2.3.4,tcp/22,udp/53") None None 0). split.
  - st. split; [split; [discriminate|chars]|vm_compute; congruence].
  - eexists. split; [vm_compute; reflexivity|vm_compute; reflexivity].
Qed.
Print Assumptions C03_long_username_refuted.

(** A time stamp of 2^31 or later. *)
Theorem C03_year_2038_refuted : exists m, settable m /\ received_as m None.
Proof.
  exists (base_msg ($ "alice") 2147483648 1 ($ "1.2.3.4,tcp/22,udp/53") None None 0). split.
  - st.
  - eexists. split; [vm_compute; reflexivity|vm_compute; reflexivity].
Qed.
Print Assumptions C03_year_2038_refuted.

(** A message of 193 to 255 characters. *)
Fixpoint many_ports (n : nat) : list bytes := match n with O => [] | S n => $ "tcp/22" :: many_ports n end.
Theorem C03_long_message_refuted : exists m, settable m /\ received_as m None.
Proof.
  exists (base_msg ($ "alice") 1700000000 1 (join [","%byte] ($ "1.2.3.4" :: many_ports 27)) None None 0). split.
  - st. split; [|split; [nonul|reflexivity]].
    exists ($ "1.2.3.4"), (many_ports 27), 1, 2, 3, 4.
    split; [reflexivity|]. split; [discriminate|]. split; [ipv4 ($ "1") ($ "2") ($ "3") ($ "4")|]. split; [vm_compute; congruence|].
    assert (P : forall n, Forall proto_port (many_ports n)).
    { induction n; constructor; auto. exists ($ "tcp"), ($ "22"). split; [auto|]. split; [reflexivity|]. split; [vm_compute; split; congruence|].
      split; [digits|vm_compute; split; congruence]. }
    apply P.
  - eexists. split; [vm_compute; reflexivity|vm_compute; reflexivity].
Qed.
Print Assumptions C03_long_message_refuted.

(** A client timeout above 65536. *)
Theorem C03_long_timeout_refuted : exists m, settable m /\ received_as m None.
Proof.
  exists (base_msg ($ "alice") 1700000000 3 ($ "1.2.3.4,tcp/22,udp/53") None None 65537). split.
  - st.
  - eexists. split; [vm_compute; reflexivity|vm_compute; reflexivity].
Qed.
Print Assumptions C03_long_timeout_refuted.

(** A NAT destination together with a type that carries none arrives as server
    authentication data. *)
Theorem C03_nat_becomes_auth_refuted : exists m m' t dg, settable m /\
  received_as m (Some (m', t, dg)) /\ s_nat m = Some ($ "192.168.1.2,22") /\ s_auth m = None /\
  s_nat m' = None /\ s_auth m' = Some ($ "192.168.1.2,22").
Proof.
  exists (base_msg ($ "alice") 1700000000 1 ($ "1.2.3.4,tcp/22,udp/53") (Some ($ "192.168.1.2,22")) None 0).
  do 3 eexists. split; [|split; [eexists; split; [vm_compute; reflexivity|vm_compute; reflexivity]|repeat split]].
  st. split; [exact nat_ex|]. split; [nonul|reflexivity].
Qed.
Print Assumptions C03_nat_becomes_auth_refuted.

(** A local NAT request without NAT destination is encoded but refused by the receiver. *)
Theorem C03_local_nat_refuted : exists m, settable m /\ received_as m None.
Proof.
  exists (base_msg ($ "alice") 1700000000 5 ($ "1.2.3.4,tcp/22,udp/53") None None 0). split.
  - st.
  - eexists. split; [vm_compute; reflexivity|vm_compute; reflexivity].
Qed.
Print Assumptions C03_local_nat_refuted.

(** A command message loses its client timeout. *)
Theorem C03_command_timeout_refuted : exists m m' t dg, settable m /\
  received_as m (Some (m', t, dg)) /\ s_timeout m = 30 /\ s_timeout m' = 0.
Proof.
  exists (base_msg ($ "alice") 1700000000 0 ($ "1.2.3.4,ls") None None 30).
  do 3 eexists. split; [|split; [eexists; split; [vm_compute; reflexivity|vm_compute; reflexivity]|repeat split]].
  st. split; [|split; [nonul|reflexivity]].
  exists ($ "1.2.3.4"), ($ "ls"), 1, 2, 3, 4. split; [reflexivity|].
  split; [ipv4 ($ "1") ($ "2") ($ "3") ($ "4")|]. split; [vm_compute; congruence|discriminate].
Qed.
Print Assumptions C03_command_timeout_refuted.

(** A random value with a colon, which the setter accepts, shifts the fields. *)
Theorem C03_rand_colon_refuted : exists m, settable m /\ received_as m None.
Proof.
  exists (mkSpa ($ "12345678:0123456") ($ "alice") 1700000000 ($ "3.0.0") 1 ($ "1.2.3.4,tcp/22,udp/53") None None 0). split.
  - st.
  - eexists. split; [vm_compute; reflexivity|vm_compute; reflexivity].
Qed.
Print Assumptions C03_rand_colon_refuted.

(** ** C04 soundness of the decoder *)
(** [extra] is empty unless the data contains a NUL byte. *)
Theorem C04_decoder_soundness : forall H buf m dt dg,
  hashes_ok H -> decode_spa H buf = Some (m, dt, dg) ->
  36 <= zlen buf < 1500 /\
  exists body extra h, cstr buf = body ++ ":"%byte :: dg /\ ~ In ":"%byte dg /\
    hash_number H dt h /\ dg = b64_text (h (body ++ extra)) /\ zlen extra = zlen buf - zlen (cstr buf) /\
    received m /\
    exists fs, body = join [":"%byte] fs /\ Forall (fun f => ~ In ":"%byte f) fs /\
      written (fun f v => exists raw, b64_decode f = Some raw /\ v = cstr raw) fs m.
Proof. exact decode_spa_sound'. Qed.
Print Assumptions C04_decoder_soundness.
Example C04_ex : exists buf m dt dg, decode_spa toy buf = Some (m, dt, dg) /\ s_nat m = Some ($ "192.168.1.2,22").
Proof.
  exists (match plaintext_of toy 6 m_timed_nat with Some p => p | None => [] end). do 3 eexists.
  split; [vm_compute; reflexivity|reflexivity].
Qed.
(** With an embedded NUL the digest covers other bytes than the message text. *)
Theorem C04_nul_refuted : exists buf m dt dg body, decode_spa toy buf = Some (m, dt, dg) /\
  cstr buf = body ++ ":"%byte :: dg /\ dg <> b64_text (h_sha256 toy body) /\ dt = 3.
Proof.
  set (body := match encode_spa (base_msg ($ "alice") 1700000000 1 ($ "1.2.3.4,tcp/22,udp/53") None None 0) with Some p => p | None => [] end).
  exists (body ++ ":"%byte :: b64_text (h_sha256 toy (body ++ [x00])) ++ [x00]).
  do 3 eexists. exists body. split; [vm_compute; reflexivity|]. split; [vm_compute; reflexivity|].
  split; [vm_compute; congruence|reflexivity].
Qed.
Print Assumptions C04_nul_refuted.
