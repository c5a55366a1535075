(** Properties of the client: its packet, ports, passwords and keys. *)
From Verif Require Import Bytes M_accfile M_base64 M_util M_message M_codec M_cipher M_ctx M_access M_replay M_cycle M_incoming M_packet M_codec M_client S_base64 S_text S_codec S_cipher S_ctx S_access S_conf S_cycle M_send S_client S_incoming S_packet S_send T_codec
  P_bytes P_incoming3 P_client2 P_client4 P_client5 P_client6 P_send4.
From Coq Require Import Init.Byte List ZArith Bool Lia.
Import ListNotations.
Open Scope Z_scope.

(** ** Samples *)
Definition v0 : world := mkWorld (fun _ => true) (fun i j => (7 * Z.of_nat i + 12345 * Z.of_nat j + 777) mod 2147483648) (mkLogin None (Some ($ "alice")) None None) 1700000000 ($ "saltsalt").
(** A system that has no seed for the random port. *)
Definition v1 : world := mkWorld (fun i => negb (Nat.eqb i 1)) (v_rand v0) (v_login v0) 1700000000 ($ "saltsalt").
Definition opts (ip access command nat : bytes) (port : Z) (rnd : bool) (timeout mode digest : Z) (key : key_source) (hmac : option key_source) (ht : Z) : options :=
  mkOptions ($ "fw.example.org") ip access command nat false port rnd timeout 0 0 [] mode digest key hmac ht.
Definition ip0 : bytes := $ "10.1.1.3".
Definition pw0 : key_source := KText ($ "pw").
Definition hk0 : option key_source := Some (KText ($ "hmac key")).
Definition o0 : options := opts ip0 ($ "tcp/22") [] [] 0 false 60 0 0 pw0 hk0 3.
Definition data_of (s : step handle) : option bytes :=
  match s with Ok (Some h) => match fko_get_spa_data h with Ok (FKO_SUCCESS, Some d) => Some d | _ => None end | _ => None end.
(** What the server gets for the data with the keys. *)
Definition opened (d : option bytes) (mode : Z) (k : bytes) (hk : option bytes) (t : Z) : option err :=
  match d with
  | Some d => match fko_new_with_data toy (Some d) (Some k) mode hk t with Ok (e, _) => Some e | Fault => None end
  | None => None
  end.

Lemma ok_small o : server_name (o_server o) -> no_nul (o_ip o) /\ ~ In ","%byte (o_ip o) /\ zlen (o_ip o) <= 15 ->
  no_nul (o_access o) /\ zlen (o_access o) <= 1023 -> no_nul (o_command o) /\ zlen (o_command o) <= 1023 -> no_nul (o_nat_access o) /\ zlen (o_nat_access o) <= 1023 ->
  0 <= o_nat_port o <= 65535 -> -1 <= o_timeout o <= 131072 -> 0 <= o_plus o < 2147483648 /\ 0 <= o_minus o < 2147483648 -> no_nul (o_user o) /\ zlen (o_user o) <= 29 ->
  match o_key o with KText k => zlen k <= 128 | _ => True end -> match o_hmac o with Some (KText k) => zlen k <= 128 | _ => True end -> options_ok o.
Proof. constructor; auto. Qed.
Ltac opts_ok := apply ok_small; cbn [opts o_server o_ip o_access o_command o_nat_access o_nat_port o_timeout o_plus o_minus o_user o_key o_hmac o0 pw0 hk0];
  repeat match goal with |- _ /\ _ => split | |- server_name _ => unfold server_name | |- _ <= _ => vm_compute; discriminate | |- _ < _ => vm_compute; reflexivity
                  | |- no_nul _ => let Q := fresh in intro Q; vm_compute in Q; decompose [or] Q; discriminate | |- ~ In _ _ => let Q := fresh in intro Q; vm_compute in Q; decompose [or] Q; discriminate end;
  try exact I; try discriminate; try (vm_compute; intuition discriminate).
Lemma o0_ok : options_ok o0.
Proof. opts_ok. Qed.
Lemma v0_ok : world_ok v0.
Proof. constructor; [|vm_compute; discriminate|reflexivity]. intros i j. apply Z.mod_pos_bound. lia. Qed.
Lemma v1_ok : world_ok v1.
Proof. constructor; [|vm_compute; discriminate|reflexivity]. intros i j. apply Z.mod_pos_bound. lia. Qed.
Lemma o0_key k : key_from (o_server o0) (o_key o0) k -> k = $ "pw".
Proof. exact (fun X => X). Qed.
Lemma o0_wants m : wants v0 o0 m -> zlen (s_rand m) = 16 /\ s_user m = $ "alice" /\ s_time m = 1700000000 /\ s_version m = $ "3.0.0" /\ s_type m = 3 /\
  s_msg m = $ "10.1.1.3,tcp/22" /\ s_nat m = None /\ s_timeout m = 60.
Proof.
  intros [[_ R] U T V TY (t & M & _ & A) N _ TO]. split; [exact R|]. split. { destruct U as [[U _]|[_ U]]; [destruct (U eq_refl)|exact U]. }
  split. { destruct T as [[T _]|[_ T]]; [discriminate T|exact T]. } split; [exact V|]. split; [exact TY|]. split.
  { destruct (A eq_refl) as (c & PC & W). rewrite M. destruct PC as [n PC|PC NP|PC NP]; [discriminate PC|destruct (NP eq_refl)|]. rewrite W. reflexivity. }
  split; [|exact TO]. destruct (s_nat m) as [n|]; [|reflexivity]. destruct N as [[N|N] _]; [discriminate N|destruct (N eq_refl)].
Qed.
Lemma o0_length m n : wants v0 o0 m -> plain_length 3 m n -> n = 111.
Proof.
  intros W (t & ti & WT & WI & ->). destruct (o0_wants m W) as (R & U & T & V & TY & M & N & TO). rewrite R, U, V, M, N, TO in *. rewrite T in WT.
  assert (t = $ "1700000000").
  { apply (writes_unique _ _ 1700000000 WT). split; [discriminate|]. split; [repeat constructor; vm_compute; discriminate|]. split; [reflexivity|discriminate]. }
  assert (ti = $ "60").
  { apply (writes_unique _ _ 60 WI). split; [discriminate|]. split; [repeat constructor; vm_compute; discriminate|]. split; [reflexivity|discriminate]. }
  subst. reflexivity.
Qed.
Lemma o0_fits m : wants v0 o0 m -> fits 3 m.
Proof.
  intro W. pose proof (fun n => o0_length m n W) as L. destruct (o0_wants m W) as (R & U & T & V & TY & M & N & TO). unfold fits. rewrite U, T, M, TO.
  split; [vm_compute; discriminate|]. split; [reflexivity|]. split; [vm_compute; discriminate|]. split; [discriminate|]. intros n P. rewrite (L n P). discriminate.
Qed.
Lemma o0_usable : hmac_usable o0.
Proof. intros s x E K. injection E as <-. cbn in K. subst x. split; [discriminate|split; discriminate]. Qed.

(** ** C64 The packet says what the options ask for *)
(** Missing for the full property: options that do not fit into a packet (see the length, the
    timeout), commands together with address translation, and a random port for the
    translation without a seed; they are refuted below. *)
Theorem C64_packet_partial : forall H v o h md, hashes_ok H -> options_ok o -> world_ok v -> (o_nat_rand o = true -> v_seed v 1%nat = true) ->
  (o_command o <> [] -> ~ nat_asked o) -> (forall m, wants v o m -> fits (or_default (o_digest o) 3) m) -> api_mode (or_default (o_mode o) 2) md ->
  hmac_usable o -> make_packet H v o = Ok (Some h) ->
  exists m k k' hk data h2, wants v o m /\ key_from (o_server o) (o_key o) k /\ key_used (or_default (o_mode o) 2) k k' /\ hmac_from o k hk /\
    fko_get_spa_data h = Ok (FKO_SUCCESS, Some data) /\ packet_text data /\ sent_length o m (zlen data) /\
    fko_new_with_data H (Some data) (Some k') (or_default (o_mode o) 2) hk (match hk with None => 0 | Some _ => o_hmac_type o end) = Ok (FKO_SUCCESS, h2) /\
    shows h2 m.
Proof. exact packet_shows. Qed.
Print Assumptions C64_packet_partial.
Example C64_ex : hashes_ok toy /\ options_ok o0 /\ world_ok v0 /\ (forall m, wants v0 o0 m -> fits (or_default (o_digest o0) 3) m) /\
  api_mode (or_default (o_mode o0) 2) CBC /\ hmac_usable o0 /\ (exists h, make_packet toy v0 o0 = Ok (Some h)) /\
  opened (data_of (make_packet toy v0 o0)) 2 ($ "pw") (Some ($ "hmac key")) 3 = Some FKO_SUCCESS.
Proof.
  split; [exact toy_ok|]. split; [exact o0_ok|]. split; [exact v0_ok|]. split; [exact o0_fits|]. split; [constructor|]. split; [exact o0_usable|].
  split; [|vm_compute; reflexivity]. destruct (make_packet toy v0 o0) as [[h|]|] eqn:E; [eauto| |]; exfalso; vm_compute in E; discriminate E.
Qed.

(** Without an access string the client asks for the port none/0, which its own library
    refuses: nothing is ever sent, although the option may be left out. *)
Theorem C64_no_access_refuted : forall H v o h, options_ok o -> world_ok v -> (o_nat_rand o = true -> v_seed v 1%nat = true) -> o_access o = [] -> o_command o = [] ->
  make_packet H v o <> Ok (Some h).
Proof. exact no_access. Qed.
Print Assumptions C64_no_access_refuted.
(** A timeout that the client takes and the server does not. *)
Theorem C64_timeout_refuted : exists o d, options_ok o /\ o_timeout o = 70000 /\ data_of (make_packet toy v0 o) = Some d /\
  opened (Some d) 2 ($ "pw") (Some ($ "hmac key")) 3 = Some FKO_ERROR_INVALID_DATA_DECODE.
Proof.
  exists (opts ip0 ($ "tcp/22") [] [] 0 false 70000 0 0 pw0 hk0 3). eexists. split; [opts_ok|]. split; [reflexivity|].
  split; [vm_compute; reflexivity|vm_compute; reflexivity].
Qed.
Print Assumptions C64_timeout_refuted.
(** A command together with an address for the translation. *)
Theorem C64_command_nat_refuted : exists o d, options_ok o /\ o_command o <> [] /\ data_of (make_packet toy v0 o) = Some d /\
  opened (Some d) 2 ($ "pw") (Some ($ "hmac key")) 3 = Some FKO_ERROR_INVALID_DATA_DECODE.
Proof.
  exists (opts ip0 ($ "tcp/22") ($ "id") ($ "10.0.0.1:80") 0 false (-1) 0 0 pw0 hk0 3). eexists. split; [opts_ok|]. split; [discriminate|].
  split; [vm_compute; reflexivity|vm_compute; reflexivity].
Qed.
Print Assumptions C64_command_nat_refuted.
(** An access string with the slash far behind and a port for the translation: the client
    writes behind its array. *)
Theorem C64_access_overflow_refuted : exists o, options_ok o /\ make_packet toy v0 o = Fault.
Proof.
  exists (opts ip0 (repeat "a"%byte 1015 ++ $ "/22") [] ($ "10.0.0.1") 80 false (-1) 0 0 pw0 None 0). split; [|vm_compute; reflexivity].
  opts_ok.
Qed.
Print Assumptions C64_access_overflow_refuted.
(** An address for the translation without a host. *)
Theorem C64_empty_host_refuted : exists o, options_ok o /\ o_nat_access o = $ ":80" /\ make_packet toy v0 o = Fault.
Proof.
  exists (opts ip0 ($ "tcp/22") [] ($ ":80") 0 false (-1) 0 0 pw0 None 0). split; [opts_ok|]. split; [reflexivity|vm_compute; reflexivity].
Qed.
Print Assumptions C64_empty_host_refuted.

(** ** C68 Random ports *)
(** Missing for the full property: see the two refutations below. *)
Theorem C68_ports_partial : forall H v w o x sv s b, hashes_ok H -> options_ok o -> world_ok v -> route_ok w x ->
  (o_nat_rand o = true -> v_seed v 1%nat = true) -> (o_command o <> [] -> ~ nat_asked o) ->
  x_proto x <> ICMP -> (x_proto x = HTTP -> x_proxy x = []) -> client H v w o x = Ok (mkEnding sv (Some s) b) ->
  (if x_rand_port x then exists q, high_port q /\ sent_to_port s q else sent_to_port s (x_dport x)) /\
  (is_raw (x_proto x) = true -> exists q, sent_from_port s q /\ (if x_sport x =? 0 then high_port q else q = x_sport x)).
Proof.
  intros H v w o x sv s b A1 A2 A3 A4 A5 A6 A7 A8 A9. destruct (client_ports H v w o x sv s b A1 A2 A3 A4 A5 A6 A7 A8 A9) as (m & h & c & _ & _ & _ & _ & D & S). split.
  - destruct (x_rand_port x); [|exact D]. exists (port_of (s_rand m)). split; [apply port_of_range|exact D].
  - intro R. destruct (S R) as (q & F & Q). exists q. split; [exact F|]. destruct (x_sport x =? 0); tauto.
Qed.
Print Assumptions C68_ports_partial.
(** The random port of the destination, and the source port, are computed from the random
    value that is encrypted in the packet: they show its first five digits, up to 55535. *)
Theorem C68_reveals_refuted : forall H v w o x sv s b, hashes_ok H -> options_ok o -> world_ok v -> route_ok w x ->
  (o_nat_rand o = true -> v_seed v 1%nat = true) -> (o_command o <> [] -> ~ nat_asked o) ->
  x_proto x <> ICMP -> (x_proto x = HTTP -> x_proxy x = []) -> client H v w o x = Ok (mkEnding sv (Some s) b) ->
  exists m h c, make_packet H v o = Ok (Some h) /\ h = Live c /\ c_rand c = Some (s_rand m) /\ wants v o m /\
    (x_rand_port x = true -> sent_to_port s (port_of (s_rand m))) /\
    (is_raw (x_proto x) = true -> x_sport x = 0 -> x_rand_port x = false -> sent_from_port s (port_of (s_rand m))).
Proof.
  intros H v w o x sv s b A1 A2 A3 A4 A5 A6 A7 A8 A9. destruct (client_ports H v w o x sv s b A1 A2 A3 A4 A5 A6 A7 A8 A9) as (m & h & c & B1 & B2 & B3 & B4 & D & S).
  exists m, h, c. split; [exact B1|]. split; [exact B2|]. split; [exact B3|]. split; [exact B4|]. split.
  - intro R. rewrite R in D. exact D.
  - intros R Z0 NR. destruct (S R) as (q & F & Q). rewrite Z0 in Q. cbn [Z.eqb] in Q. destruct Q as [_ Q]. rewrite (Q NR) in F. exact F.
Qed.
Print Assumptions C68_reveals_refuted.
Definition w0 : network := mkNetwork (fun _ => Some 167772417) 1 2.
Definition route0 (p : protocol) (sp : Z) (rp : bool) (spoof proxy : bytes) (test : bool) : route := mkRoute p 62201 sp rp spoof ($ "Fwknop/3.0.0") proxy 8 0 test true.
Lemma route0_ok p rp spoof proxy test : route_ok w0 (route0 p 0 rp spoof proxy test).
Proof.
  constructor; [cbn; lia|cbn; lia| |intros h a E; injection E as <-; lia].
  split; [intro Q; vm_compute in Q; intuition discriminate|vm_compute; discriminate].
Qed.
Example C68_ex : route_ok w0 (route0 TCP_RAW 0 true [] [] false) /\
  match client toy v0 w0 o0 (route0 TCP_RAW 0 true [] [] false) with
  | Ok (mkEnding _ (Some s) true) => sent_to_port s 32178 /\ sent_from_port s 33578
  | _ => False
  end.
Proof. split; [apply route0_ok|]. vm_compute. split; reflexivity. Qed.
(** Without a seed the random port for the translation is left out without a word. *)
Theorem C68_no_seed_refuted : exists v o m, options_ok o /\ world_ok v /\ o_nat_rand o = true /\
  (exists d h, data_of (make_packet toy v o) = Some d /\ fko_new_with_data toy (Some d) (Some ($ "pw")) 2 None 0 = Ok (FKO_SUCCESS, h) /\ shows h m) /\
  s_msg m = $ "10.1.1.3,tcp/22" /\ ~ exists t, s_msg m = ip0 ++ [","%byte] ++ t /\ access_wanted o t.
Proof.
  exists v1, (opts ip0 ($ "tcp/22") [] ($ "10.0.0.1") 0 true (-1) 0 0 pw0 None 0).
  eexists (M_codec.mkSpa _ ($ "alice") 1700000000 ($ "3.0.0") 2 ($ "10.1.1.3,tcp/22") (Some ($ "10.0.0.1,22")) None 0).
  split; [opts_ok|]. split; [exact v1_ok|]. split; [reflexivity|]. split.
  { do 2 eexists. split; [vm_compute; reflexivity|]. split; [vm_compute; reflexivity|]. vm_compute. repeat split; reflexivity. }
  split; [reflexivity|]. intros (t & E & c & PC & W). cbn [M_codec.s_msg] in E. injection E as <-.
  destruct PC as [n _ R|NR|NR]; [|discriminate NR|discriminate NR]. destruct W as (proto & port & ds & EA & NS & WR & ET).
  assert (Q : proto = $ "tcp" /\ ds = $ "22").
  { assert (NP : ~ In "/"%byte proto) by (intro X; apply NS; apply in_or_app; auto).
    destruct proto as [|a [|b [|c [|d proto]]]]; cbn in ET; injection ET; intros; subst; try discriminate; try (split; reflexivity).
    all: exfalso; apply NP; cbn; auto 6. }
  destruct Q as [_ ->]. destruct WR as (_ & _ & D & _). vm_compute in D. subst n. lia.
Qed.
Print Assumptions C68_no_seed_refuted.

(** ** C69 Passwords and key files *)
Theorem C69_prompt_partial : forall server i k, no_nul i -> (forall a r, i = a ++ x03 :: r -> In x0a a) ->
  (get_key server (KPrompt (Some i)) = Ok (Some k) <-> entered i k).
Proof. exact prompt_iff. Qed.
Print Assumptions C69_prompt_partial.
Example C69_ex : entered ($ "wrong" ++ [x15] ++ $ "secrx" ++ [x08] ++ $ "et" ++ [x0a] ++ $ "rest") ($ "secret").
Proof.
  apply (C69_prompt_partial ($ "fw")).
  - intro Q. vm_compute in Q. intuition discriminate.
  - intros a r E. exfalso. assert (I : In x03 ($ "wrong" ++ [x15] ++ $ "secrx" ++ [x08] ++ $ "et" ++ [x0a] ++ $ "rest")) by (rewrite E; apply in_or_app; right; left; reflexivity).
    vm_compute in I. intuition discriminate.
  - reflexivity.
Qed.
(** Of the entries of a key file for the server the last one is used. *)
Theorem C69_file_partial : forall server lines k, server_name server -> Forall (fun l => ~ In x0a l /\ no_nul l /\ zlen l <= 127) lines ->
  (get_key server (KFile (Some (file lines))) = Ok (Some k) <-> file_key server lines k /\ k <> []).
Proof. exact file_iff. Qed.
Print Assumptions C69_file_partial.
Example C69_file_ex : server_name ($ "fw.example.org") /\
  get_key ($ "fw.example.org") (KFile (Some (file [$ "# keys"; $ "fw.example.org: old"; $ "other:  k2"; $ " fw.example.org:  = new key"]))) = Ok (Some ($ "new key")).
Proof. split; [apply o0_ok|reflexivity]. Qed.
(** Control-C at the prompt does not end the client: a packet sealed with the empty key is
    made. *)
Theorem C69_interrupt_refuted : exists o d, options_ok o /\ o_key o = KPrompt (Some ($ "secret" ++ [x03])) /\ data_of (make_packet toy v0 o) = Some d /\
  opened (Some d) 2 [] None 0 = Some FKO_SUCCESS.
Proof.
  exists (opts ip0 ($ "tcp/22") [] [] 0 false 60 0 0 (KPrompt (Some ($ "secret" ++ [x03]))) None 0). eexists. split; [opts_ok|]. split; [reflexivity|].
  split; [vm_compute; reflexivity|vm_compute; reflexivity].
Qed.
Print Assumptions C69_interrupt_refuted.
(** A key of more than 128 characters in a key file is written behind the array. *)
Theorem C69_file_overflow_refuted : exists o l, options_ok o /\ o_key o = KFile (Some (file [l])) /\ line_ok l /\ make_packet toy v0 o = Fault.
Proof.
  exists (opts ip0 ($ "tcp/22") [] [] 0 false 60 0 0 (KFile (Some (file [$ "fw.example.org: " ++ repeat "A"%byte 129]))) None 0). eexists. split; [opts_ok|]. split; [reflexivity|].
  split; [|vm_compute; reflexivity]. split; [|split; [|vm_compute; discriminate]]; intro Q; vm_compute in Q; intuition discriminate.
Qed.
Print Assumptions C69_file_overflow_refuted.

(** ** C70 The two keys differ *)
(** In the mode for old servers the key is cut after the comparison; options with that mode
    and an HMAC are refused, see C70_accepted_partial. *)
Theorem C70_keys_partial : forall H v o h, hashes_ok H -> options_ok o -> world_ok v -> (o_nat_rand o = true -> v_seed v 1%nat = true) ->
  (o_command o <> [] -> ~ nat_asked o) -> make_packet H v o = Ok (Some h) -> or_default (o_mode o) 2 <> 8 ->
  forall s k hk, o_hmac o = Some s -> (forall x, key_from (o_server o) (o_key o) x -> x = k) -> (forall x, key_from (o_server o) s x -> x = hk) -> k <> hk.
Proof.
  intros H v o h A1 A2 A3 A4 A5 A6 NL s k hk E K HK Q.
  destruct (client_packet H v o h A1 A2 A3 A4 A5 A6) as (m & k1 & k2 & hk1 & _ & KF & _ & KH & _). rewrite E in KH. destruct KH as (x & _ & KX & NE).
  apply NE. rewrite (K _ KF), (HK _ KX). congruence.
Qed.
Print Assumptions C70_keys_partial.
Example C70_ex : (forall x, key_from (o_server o0) (o_key o0) x -> x = $ "pw") /\ (forall s x, o_hmac o0 = Some s -> key_from (o_server o0) s x -> x = $ "hmac key") /\
  (exists h, make_packet toy v0 o0 = Ok (Some h)) /\ make_packet toy v0 (opts ip0 ($ "tcp/22") [] [] 0 false 60 0 0 pw0 (Some pw0) 3) = Ok None.
Proof.
  split; [exact o0_key|]. split. { intros s x E K. injection E as <-. exact K. } split; [|vm_compute; reflexivity].
  destruct (make_packet toy v0 o0) as [[h|]|] eqn:E; [eauto| |]; exfalso; vm_compute in E; discriminate E.
Qed.
(** A key in base64 that is too long is written behind the array. *)
Theorem C70_base64_overflow_refuted : exists o, options_ok o /\ o_key o = KBase64 (repeat "A"%byte 180) /\ make_packet toy v0 o = Fault.
Proof.
  exists (opts ip0 ($ "tcp/22") [] [] 0 false 60 0 0 (KBase64 (repeat "A"%byte 180)) None 0). split; [opts_ok|]. split; [reflexivity|]. vm_compute. reflexivity.
Qed.
Print Assumptions C70_base64_overflow_refuted.
