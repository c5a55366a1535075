(** Property theorems: the context interface of the library. *)
From Verif Require Import Bytes M_base64 M_util M_message M_codec M_cipher M_ctx S_base64 S_text S_codec S_cipher S_ctx
  P_util P_message P_ctx P_ctx2 P_ctx3 P_ctx4 P_ctx5 P_ctx6 T_codec.
From Coq Require Import Init.Byte List ZArith Bool Lia.
Import ListNotations.
Open Scope Z_scope.

(** ** A sender used in the examples *)
Definition rnd0 (i : nat) : Z := 123456789.
Definition l0 : login := mkLogin (Some ($ "alice")) None None None.
Definition play (ks : list call) : outcome handle :=
  fold_left (fun r k => match r with Ok h => match run_call toy k h with Ok (_, h') => Ok h' | Fault => Fault end | Fault => Fault end)
    ks (Ok (snd (fko_new true rnd0 l0 1700000000))).
Lemma play_history ks h : Forall sender_call ks -> play ks = Ok h -> sender_history toy ks h.
Proof.
  revert h. induction ks as [|k ks IH] using rev_ind; intros h S P.
  - unfold play in P. cbn [fold_left] in P. inversion P. apply (sh_new toy true rnd0 l0 1700000000). vm_compute. reflexivity.
  - apply Forall_app in S as [S1 S2]. inversion S2; subst. unfold play in P. rewrite fold_left_app in P. fold (play ks) in P. cbn [fold_left] in P.
    destruct (play ks) as [h0|] eqn:Q; [|discriminate]. destruct (run_call toy k h0) as [[e h1]|] eqn:R; [|discriminate]. inversion P; subst.
    eapply sh_call; eauto.
Qed.
Definition setup : list call := [CSetMsg (Some ($ "1.2.3.4,tcp/22")); CSetNat (Some ($ "192.168.1.2,22")); CSetTimeout 60; CSetHmacType 3].
Definition pkt_of (h : outcome handle) : bytes :=
  match h with Ok h => match fko_get_spa_data h with Ok (_, Some p) => p | _ => [] end | Fault => [] end.
Definition shown (h : outcome (err * handle)) : option (option bytes * option bytes * Z) :=
  match h with Ok (FKO_SUCCESS, Live c) => Some (c_msg c, c_nat c, c_timeout c) | _ => None end.

(** ** C11 From sender to receiver *)
(** Missing for the full property: values outside [sendable] (see C03), random values that
    are not all digits, plaintexts above 271 bytes and modes without an implementation; the
    refutations below and in T_codec and T_cipher show that these are not received. *)
Theorem C11_end_to_end_partial : forall H ks h0 m mode md dt hash ht key hk salt pt,
  hashes_ok H -> sender_history H ks h0 -> shows h0 m -> sendable m -> all_digits (s_rand m) ->
  reads h0 AEncType (VNum 1) -> reads h0 AMode (VNum mode) -> api_mode mode md ->
  reads h0 ADigestType (VNum dt) -> hash_number H dt hash -> plaintext_of H dt m = Some pt -> zlen pt <= 271 ->
  reads h0 AHmacType (VNum ht) ->
  (ht = 0 /\ hk = None) \/ (exists k h, hk = Some k /\ 1 <= zlen k <= 136 /\ hash_number H ht h) ->
  zlen key <= 32 -> zlen salt = 8 ->
  exists h1 pkt h2,
    run_call H (CFinal (Some key) hk salt) h0 = Ok (FKO_SUCCESS, h1) /\
    fko_get_spa_data h1 = Ok (FKO_SUCCESS, Some pkt) /\
    fko_new_with_data H (Some pkt) (Some key) mode hk ht = Ok (FKO_SUCCESS, h2) /\ shows h2 m.
Proof. exact end_to_end. Qed.
Print Assumptions C11_end_to_end_partial.

Definition m_ex : spa := mkSpa ($ "1234567891234567") ($ "alice") 1700000000 ($ "3.0.0") 4 ($ "1.2.3.4,tcp/22") (Some ($ "192.168.1.2,22")) None 60.
Lemma access_ex1 : access_request ($ "1.2.3.4,tcp/22").
Proof.
  exists ($ "1.2.3.4"), [$ "tcp/22"], 1, 2, 3, 4.
  split; [reflexivity|]. split; [discriminate|]. split; [ipv4 ($ "1") ($ "2") ($ "3") ($ "4")|]. split; [vm_compute; congruence|].
  constructor; [|constructor].
  exists ($ "tcp"), ($ "22"). split; [auto|]. split; [reflexivity|]. split; [vm_compute; split; congruence|].
  split; [digits|vm_compute; split; congruence].
Qed.
Lemma m_ex_sendable : sendable m_ex.
Proof.
  constructor; cbn [m_ex s_rand s_user s_time s_version s_type s_msg s_nat s_auth s_timeout].
  - split; [reflexivity|]. split; chars.
  - split; [split; [discriminate|chars]|vm_compute; congruence].
  - lia.
  - split; [vm_compute; split; congruence|split; chars].
  - lia.
  - split; [exact access_ex1|]. split; [nonul|vm_compute; congruence].
  - split; [right; left; reflexivity|]. split; [exact nat_ex|]. split; [nonul|vm_compute; congruence].
  - exact I.
  - split; [lia|]. split; [intros _; right; left; reflexivity|lia].
Qed.
Example C11_ex : exists h0 pt, sender_history toy setup h0 /\ shows h0 m_ex /\ sendable m_ex /\ all_digits (s_rand m_ex) /\
  reads h0 AEncType (VNum 1) /\ reads h0 AMode (VNum 2) /\ reads h0 ADigestType (VNum 3) /\ reads h0 AHmacType (VNum 3) /\
  plaintext_of toy 3 m_ex = Some pt /\ zlen pt <= 271.
Proof.
  eexists. eexists. split; [apply play_history; [repeat constructor|vm_compute; reflexivity]|].
  split; [repeat split; vm_compute; reflexivity|]. split; [exact m_ex_sendable|]. split; [digits|].
  do 4 (split; [vm_compute; reflexivity|]). split; [vm_compute; reflexivity|vm_compute; congruence].
Qed.
(** A longer message: sent without error, refused by the receiver as being of no known
    encryption type. *)
Theorem C11_long_message_refuted : exists ks h1 pkt, Forall sender_call ks /\ play ks = Ok h1 /\
  fko_get_spa_data h1 = Ok (FKO_SUCCESS, Some pkt) /\
  fko_new_with_data toy (Some pkt) (Some ($ "pw")) 2 None 0 = Ok (FKO_ERROR_INVALID_DATA_ENCRYPT_TYPE_UNKNOWN, Null).
Proof.
  exists [CSetMsg (Some (join [","%byte] ($ "1.2.3.4" :: many_ports 19))); CSetAuth (Some (repeat "a"%byte 30));
          CFinal (Some ($ "pw")) None ($ "saltsalt")].
  do 2 eexists. split; [repeat constructor|]. split; [vm_compute; reflexivity|]. split; [vm_compute; reflexivity|]. vm_compute. reflexivity.
Qed.
Print Assumptions C11_long_message_refuted.
(** A random value that is not numeric, which the setter accepts. *)
Theorem C11_rand_refuted : exists ks h1 pkt, Forall sender_call ks /\ play ks = Ok h1 /\
  fko_get_spa_data h1 = Ok (FKO_SUCCESS, Some pkt) /\
  fko_new_with_data toy (Some pkt) (Some ($ "pw")) 2 None 0 = Ok (FKO_ERROR_DECRYPTION_FAILURE, Null).
Proof.
  exists [CSetRand ($ "abcdefghijklmnop"); CSetMsg (Some ($ "1.2.3.4,tcp/22")); CFinal (Some ($ "pw")) None ($ "saltsalt")].
  do 2 eexists. split; [repeat constructor; nonul|]. split; [vm_compute; reflexivity|]. split; [vm_compute; reflexivity|]. vm_compute. reflexivity.
Qed.
Print Assumptions C11_rand_refuted.

(** ** C12 The HMAC decides before decryption *)
Theorem C12_hmac_first : forall H m mode hk ht, hashes_ok H -> hk <> [] ->
  (exists h body, hash_number H ht h /\ 36 <= zlen body /\
     m = body ++ b64_text (rfc2104 h (hash_block ht) hk (with_prefix mode body))) \/
  (exists e, e <> FKO_SUCCESS /\ forall dk, fko_new_with_data H (Some m) dk mode (Some hk) ht = Ok (e, Null)).
Proof. exact hmac_first. Qed.
Print Assumptions C12_hmac_first.
Definition packet1 : bytes := Eval vm_compute in pkt_of (play (setup ++ [CFinal (Some ($ "pw")) (Some ($ "hmac key")) ($ "saltsalt")])).
Example C12_ex : shown (fko_new_with_data toy (Some packet1) (Some ($ "pw")) 2 (Some ($ "hmac key")) 3) =
    Some (Some ($ "1.2.3.4,tcp/22"), Some ($ "192.168.1.2,22"), 60) /\
  fko_new_with_data toy (Some (removelast packet1 ++ ["x"%byte])) (Some ($ "pw")) 2 (Some ($ "hmac key")) 3 = Ok (FKO_ERROR_INVALID_DATA_HMAC_COMPAREFAIL, Null).
Proof. split; vm_compute; reflexivity. Qed.

(** ** C13 Malleability *)
(** The accepted text is not unique: the prefix that the sender drops may be left in. *)
Theorem C13_prefix_refuted : exists p1 p2 h1 h2, p1 <> p2 /\ (exists x, p2 = x ++ p1) /\
  fko_new_with_data toy (Some p1) (Some ($ "pw")) 2 (Some ($ "hmac key")) 3 = Ok (FKO_SUCCESS, h1) /\
  fko_new_with_data toy (Some p2) (Some ($ "pw")) 2 (Some ($ "hmac key")) 3 = Ok (FKO_SUCCESS, h2) /\
  get AMsg h1 = get AMsg h2.
Proof.
  exists packet1, ($ "U2FsdGVkX1" ++ packet1). do 2 eexists. split; [vm_compute; congruence|]. split; [eexists; reflexivity|].
  split; [vm_compute; reflexivity|]. split; [vm_compute; reflexivity|]. vm_compute. reflexivity.
Qed.
Print Assumptions C13_prefix_refuted.
(** Two accepted texts without that prefix, if different, carry HMACs of different texts:
    nothing else about a packet can be changed.  Missing for the full property: texts with
    the prefix, see above. *)
Theorem C13_not_malleable_partial : forall H mode ht hk p1 p2 dk1 dk2 h1 h2, hashes_ok H -> hk <> [] ->
  fko_new_with_data H (Some p1) dk1 mode (Some hk) ht = Ok (FKO_SUCCESS, h1) ->
  fko_new_with_data H (Some p2) dk2 mode (Some hk) ht = Ok (FKO_SUCCESS, h2) ->
  is_prefix (prefix_of mode) p1 = false -> is_prefix (prefix_of mode) p2 = false -> p1 <> p2 ->
  exists h b1 b2, hash_number H ht h /\ b1 <> b2 /\
    p1 = b1 ++ b64_text (rfc2104 h (hash_block ht) hk (prefix_of mode ++ b1)) /\
    p2 = b2 ++ b64_text (rfc2104 h (hash_block ht) hk (prefix_of mode ++ b2)).
Proof. exact not_malleable. Qed.
Print Assumptions C13_not_malleable_partial.
Definition packet2 : bytes := Eval vm_compute in pkt_of (play (setup ++ [CFinal (Some ($ "pw")) (Some ($ "hmac key")) ($ "SALTsalt")])).
Example C13_ex : is_prefix (prefix_of 2) packet1 = false /\ is_prefix (prefix_of 2) packet2 = false /\ packet1 <> packet2 /\
  shown (fko_new_with_data toy (Some packet2) (Some ($ "pw")) 2 (Some ($ "hmac key")) 3) =
    Some (Some ($ "1.2.3.4,tcp/22"), Some ($ "192.168.1.2,22"), 60).
Proof. split; [vm_compute; reflexivity|]. split; [vm_compute; reflexivity|]. split; [vm_compute; congruence|vm_compute; reflexivity]. Qed.

(** ** C15 Life cycle of a context *)
Theorem C15_null_handle : forall H k a, run_call H k Null = Ok (FKO_ERROR_CTX_NOT_INITIALIZED, Null) /\
  get a Null = Ok (FKO_ERROR_CTX_NOT_INITIALIZED, None) /\ fko_get_spa_data Null = Ok (FKO_ERROR_CTX_NOT_INITIALIZED, None).
Proof. intros H k a. repeat split. destruct a; reflexivity. Qed.
Print Assumptions C15_null_handle.
(** Except for one function, which dereferences the handle without looking at it. *)
Theorem C15_decode_null_refuted : forall H, fko_decode_spa_data H Null = Fault.
Proof. exact (fun H => eq_refl). Qed.
Print Assumptions C15_decode_null_refuted.
(** A destroyed handle is a dangling pointer: every use is undefined. *)
Theorem C15_destroyed_refuted : forall H k h e h', fko_destroy h = Ok (e, h') -> h <> Null -> run_call H k h' = Fault.
Proof.
  intros H k [|c|] e h' D N; [congruence| |discriminate]. unfold fko_destroy in D. inversion D; subst. reflexivity.
Qed.
Print Assumptions C15_destroyed_refuted.
Theorem C15_get_after_set : forall H k h h' a v, run_call H k h = Ok (FKO_SUCCESS, h') -> sets k h a v -> reads h' a v.
Proof. exact get_after_set. Qed.
Print Assumptions C15_get_after_set.
Theorem C15_failed_setter : forall H k h e h', is_setter k = true -> run_call H k h = Ok (e, h') -> e <> FKO_SUCCESS -> h' = h.
Proof. exact failed_setter. Qed.
Print Assumptions C15_failed_setter.
Theorem C15_frame : forall H k h e h' a, history H h -> run_call H k h = Ok (e, h') -> ~ In a (touches k) -> get a h' = get a h.
Proof. exact history_frame. Qed.
Print Assumptions C15_frame.
Example C15_ex : exists h, history toy h /\ exists h', run_call toy (CSetMsg (Some ($ "1.2.3.4,udp/53"))) h = Ok (FKO_SUCCESS, h') /\
  reads h' AMsg (VText (Some ($ "1.2.3.4,udp/53"))) /\ reads h' ANat (VText (Some ($ "192.168.1.2,22"))) /\
  run_call toy (CSetMsg (Some ($ "1.2.3.4,xyz/53"))) h' = Ok (FKO_ERROR_INVALID_DATA_MESSAGE_FORMAT, h').
Proof.
  assert (P : exists h, play setup = Ok h) by (eexists; vm_compute; reflexivity). destruct P as (h & P).
  exists h. split.
  - assert (S : sender_history toy setup h) by (apply play_history; [repeat constructor|auto]). clear P. induction S; [eapply hi_new; eauto|eapply hi_call; eauto].
  - vm_compute in P. inversion P; subst. eexists. split; [vm_compute; reflexivity|]. repeat split; vm_compute; reflexivity.
Qed.

(** ** C16 Nothing stale is sent *)
(** [encode_text] is the function proved to be inverted by the receiver in C03; which values
    the message had before the last calls does not enter. *)
Theorem C16_final_sends_current : forall H ks h key hk salt h' pkt, hashes_ok H -> sender_history H ks h ->
  run_call H (CFinal key hk salt) h = Ok (FKO_SUCCESS, h') -> fko_get_spa_data h' = Ok (FKO_SUCCESS, Some pkt) ->
  exists k m mode dt hash ht text mac, key = Some k /\ zlen k <= 32 /\
    shows h' m /\ reads h' AMode (VNum mode) /\ reads h' ADigestType (VNum dt) /\ reads h' AHmacType (VNum ht) /\
    hash_number H dt hash /\ encode_text m = Some text /\
    (ht = 0 /\ mac = [] \/
     exists hkey mh, hk = Some hkey /\ hash_number H ht mh /\
       mac = b64_text (rfc2104 mh (hash_block ht) hkey (b64_text (rij_encrypt H mode k salt (text ++ ":"%byte :: b64_text (hash text)))))) /\
    pkt = zdrop 10 (b64_text (rij_encrypt H mode k salt (text ++ ":"%byte :: b64_text (hash text))) ++ mac) /\
    (forall a, ~ In a [AEncoded; ADigest; AType; AHmac] -> get a h' = get a h).
Proof. exact final_sends. Qed.
Print Assumptions C16_final_sends_current.
Example C16_ex : let ks := setup ++ [CFinal (Some ($ "pw")) (Some ($ "hmac key")) ($ "saltsalt"); CSetMsg (Some ($ "1.2.3.4,tcp/80"))] in
  exists h h' pkt, sender_history toy ks h /\ run_call toy (CFinal (Some ($ "pw")) (Some ($ "hmac key")) ($ "saltsalt")) h = Ok (FKO_SUCCESS, h') /\
  fko_get_spa_data h' = Ok (FKO_SUCCESS, Some pkt) /\
  shown (fko_new_with_data toy (Some pkt) (Some ($ "pw")) 2 (Some ($ "hmac key")) 3) = Some (Some ($ "1.2.3.4,tcp/80"), Some ($ "192.168.1.2,22"), 60).
Proof.
  intro ks. do 3 eexists. split; [apply play_history; [repeat constructor|vm_compute; reflexivity]|].
  split; [vm_compute; reflexivity|]. split; [vm_compute; reflexivity|]. vm_compute. reflexivity.
Qed.

(** ** C04 for the constructor *)
(** A context made from a packet stands for a message that satisfies the decoder's
    guarantees (C04_decoder_soundness) on the decrypted bytes. *)
Theorem C04_constructor_sound : forall H m k mode hk ht h, hashes_ok H ->
  fko_new_with_data H (Some m) (Some k) mode hk ht = Ok (FKO_SUCCESS, h) ->
  exists t ci pt sp dt dg, 36 <= zlen t < 410 /\ zlen k <= 32 /\ b64_decode t = Some ci /\ zlen ci mod 16 = 0 /\
    is_prefix ($ "U2FsdGVkX1") t = true /\
    rij_decrypt H mode k ci = Ok pt /\ all_digits (ztake 16 pt) /\ decode_spa H pt = Some (sp, dt, dg) /\ shows h sp.
Proof. exact new_sound. Qed.
Print Assumptions C04_constructor_sound.

(** ** C47 Generated random values *)
Theorem C47_random_value : forall H rnd h h', (forall i, 0 <= rnd i < 2147483648) ->
  run_call H (CGenRand true rnd) h = Ok (FKO_SUCCESS, h') ->
  exists v, reads h' ARand (VText (Some v)) /\ zlen v = 16 /\ all_digits v.
Proof.
  intros H rnd h h' R E. destruct (run_call_live _ _ _ _ _ E ltac:(discriminate)) as (c & c' & -> & -> & X).
  cbn [on_live gen_rand_value] in X. inversion X; subst. destruct (rand_value_digits rnd) as [D L].
  { intro i. specialize (R i). lia. }
  exists (rand_digits rnd). repeat split; auto.
Qed.
Print Assumptions C47_random_value.
Example C47_ex : exists h h', run_call toy (CGenRand true (fun i => Z.of_nat i)) h = Ok (FKO_SUCCESS, h') /\
  reads h' ARand (VText (Some ($ "0123456789101112"))).
Proof. exists (Live empty_ctx). eexists. split; vm_compute; reflexivity. Qed.

(** ** C48 Key generation *)
Theorem C48_key_lengths : forall klen hlen ht rnd hrnd k h,
  (forall n, 0 <= n -> zlen (rnd n) = n) -> (forall n, 0 <= n -> zlen (hrnd n) = n) ->
  fko_key_gen klen hlen ht rnd hrnd = Some (k, h) ->
  exists rk rh, k = rfc4648 rk /\ h = rfc4648 rh /\ 1 <= zlen rk <= 32 /\ 1 <= zlen rh <= 128 /\
    (klen <> 0 -> zlen rk = klen) /\ (hlen <> 0 -> zlen rh = hlen).
Proof.
  intros klen hlen ht rnd hrnd k h R S. unfold fko_key_gen, RIJNDAEL_MAX_KEYSIZE. cbv zeta.
  set (kl := if klen =? 0 then 32 else klen). set (hl := if hlen =? 0 then _ else hlen).
  assert (K : klen <> 0 -> kl = klen) by (unfold kl; destruct (klen =? 0) eqn:E; lia).
  assert (L : hlen <> 0 -> hl = hlen) by (unfold hl; destruct (hlen =? 0) eqn:E; lia).
  clearbody kl hl. destruct ((kl <? 1) || (kl >? 32)) eqn:A; [discriminate|]. destruct ((hl <? 1) || (hl >? 128)) eqn:B; [discriminate|].
  intro E; inversion E; subst. exists (rnd kl), (hrnd hl). rewrite !P_base64.b64_encode_rfc, R, S by lia.
  repeat split; auto; lia.
Qed.
Print Assumptions C48_key_lengths.
Example C48_ex : exists k h, fko_key_gen 0 0 3 (fun n => repeat x41 (Z.to_nat n)) (fun n => repeat x42 (Z.to_nat n)) = Some (k, h) /\ zlen k = 44.
Proof. do 2 eexists. split; vm_compute; reflexivity. Qed.
(** With a SHA3 HMAC type there is no default length, and the call fails. *)
Theorem C48_sha3_default_refuted : forall ht rnd hrnd, ht = 6 \/ ht = 7 -> fko_key_gen 0 0 ht rnd hrnd = None.
Proof. intros ht rnd hrnd [-> | ->]; reflexivity. Qed.
Print Assumptions C48_sha3_default_refuted.

(** ** C49 Memory safety of the sender *)
(** Missing for the full property: [fko_set_spa_hmac] called directly, see below. *)
Theorem C49_sender_memory_partial : forall H ks h k, hashes_ok H -> sender_history H ks h -> sender_call k ->
  (forall key, k <> CSetHmac key) -> run_call H k h <> Fault.
Proof. exact sender_no_fault. Qed.
Print Assumptions C49_sender_memory_partial.
Example C49_ex : exists h, sender_history toy (setup ++ [CEncode; CSetDigestType 6; CSpaDigest; CEncrypt None []; CRawDigest]) h.
Proof. eexists. apply play_history; [repeat constructor|vm_compute; reflexivity]. Qed.
Theorem C49_set_hmac_refuted : exists ks h, sender_history toy ks h /\ run_call toy (CSetHmac (Some ($ "hmac key"))) h = Fault.
Proof.
  exists (setup ++ [CFinal (Some ($ "pw")) (Some ($ "hmac key")) ($ "saltsalt")]). eexists.
  split; [apply play_history; [repeat constructor|vm_compute; reflexivity]|vm_compute; reflexivity].
Qed.
Print Assumptions C49_set_hmac_refuted.

(** ** C50 Memory safety of the receiver *)
(** Missing for the full property: packets with a padding character, see below. *)
Theorem C50_receiver_memory_partial : forall H m dk mode hk ht, hashes_ok H -> ~ In "="%byte m ->
  fko_new_with_data H (Some m) dk mode hk ht <> Fault.
Proof. exact new_no_fault. Qed.
Print Assumptions C50_receiver_memory_partial.
Example C50_ex : ~ In "="%byte packet1.
Proof. intro I. assert (E : existsb (beq "="%byte) packet1 = true) by (apply existsb_exists; exists "="%byte; split; [auto|reflexivity]). vm_compute in E. discriminate. Qed.
(** A padding character cuts the base64 text short; with exactly one block left the byte
    before the plaintext buffer is read.  No key is needed to send this. *)
Theorem C50_padding_refuted : exists m, zlen m = 36 /\ forall H k, zlen k <= 32 -> fko_new_with_data H (Some m) (Some k) 2 None 0 = Fault.
Proof.
  exists ($ "9zYWx0c2FsdA" ++ "="%byte :: repeat "A"%byte 23). split; [reflexivity|]. intros H k L.
  unfold fko_new_with_data. cbv zeta. set (n := strnlen _ _). vm_compute in n. subst n.
  change (negb (is_valid_encoded_msg_len 36)) with false. cbn [negb].
  unfold set_encryption_mode, set_hmac_type. change ((2 <? 0) || (2 >=? FKO_LAST_ENC_MODE)) with false. change ((0 <? 0) || (0 >=? FKO_LAST_HMAC_MODE)) with false. cbn [ok negb].
  unfold decrypt_spa_data. cbv zeta. cbn [c_crypt set_c_htype set_c_mode set_c_crypt_len set_c_crypt].
  match goal with |- context [encryption_type ?c] => set (et := encryption_type c); vm_compute in et; subst et end. cbn [Z.eqb FKO_ENCRYPTION_GPG FKO_ENCRYPTION_RIJNDAEL andb Pos.eqb].
  unfold rijndael_decrypt, RIJNDAEL_MAX_KEYSIZE. replace (zlen k >? 32) with false by lia.
  cbn [c_salted set_c_etype set_c_htype set_c_mode set_c_crypt_len set_c_crypt empty_ctx].
  match goal with |- context [add_salted_str ?c] => set (r := add_salted_str c); vm_compute in r; subst r end.
  cbn [ok negb c_crypt c_mode]. match goal with |- context [b64_decode ?c] => set (r := b64_decode c); vm_compute in r; subst r end.
  cbv iota beta. set (b := negb _). vm_compute in b. subst b. cbv iota. unfold rij_decrypt.
  destruct (rij_key_iv _ _ _ _). reflexivity.
Qed.
Print Assumptions C50_padding_refuted.
