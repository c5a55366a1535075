(** Property theorems: base64, text validation, number parsing, string helpers. *)
From Verif Require Import Bytes M_base64 M_util M_message S_base64 S_text.
From Verif Require Import P_bytes P_base64 P_util P_util2 P_message.
From Coq Require Import Init.Byte List ZArith Lia Bool.
Import ListNotations.
Open Scope Z_scope.

(** ** C01 base64 round trip *)
Theorem C01_base64_round_trip : forall l : bytes,
  b64_decode (b64_encode l) = Some l /\
  b64_decode (strip_b64_eq (b64_encode l)) = Some l /\
  b64_encode l = rfc4648 l /\
  Forall is_b64_char (strip_b64_eq (b64_encode l)).
Proof.
  exact (fun l => conj (b64_round_trip l) (conj (b64_round_trip_stripped l)
         (conj (b64_encode_rfc l) (b64_stripped_chars l)))).
Qed.
Print Assumptions C01_base64_round_trip.
Example C01_ex : b64_encode [x00; xff; x10; x83] = $ "AP8Qgw==".
Proof. vm_compute. reflexivity. Qed.

(** ** C02 base64 decoding: rejection and buffer use *)
Theorem C02_base64_decode_accepts : forall s body,
  b64_body s body ->
  ((exists out, b64_decode s = Some out) <-> Forall is_b64_char body) /\
  (forall out, b64_decode s = Some out -> zlen out = 3 * zlen body / 4).
Proof. exact b64_decode_accepts. Qed.
Print Assumptions C02_base64_decode_accepts.
Theorem C02_base64_body_total : forall s, exists body, b64_body s body.
Proof. exact b64_body_exists. Qed.
Print Assumptions C02_base64_body_total.
Theorem C02_base64_decode_fits_partial : forall s, s <> [] -> zlen (b64_decode_stores s) <= zlen s.
Proof. exact b64_decode_fits. Qed.
Print Assumptions C02_base64_decode_fits_partial.
Example C02_ex : b64_body ($ "QU=C") ($ "QU") /\ b64_decode ($ "QU=C") = Some ($ "A")
  /\ b64_decode ($ "Q*") = None /\ b64_decode_stores ($ "QUJD") = $ "ABC" ++ [x00].
Proof. repeat split; try (vm_compute; reflexivity). repeat (constructor; try discriminate). Qed.
(** The empty text still stores its terminating NUL: a zero-length buffer is overrun. *)
Theorem C02_base64_empty_store_refuted :
  exists s, zlen s < zlen (b64_decode_stores s).
Proof. exact (ex_intro _ [] eq_refl). Qed.
Print Assumptions C02_base64_empty_store_refuted.

(** ** C05 message grammars *)
Theorem C05_access_message_grammar : forall msg,
  validate_access_msg msg = true <-> (zlen msg < 256 /\ access_request msg).
Proof. exact validate_access_msg_iff. Qed.
Print Assumptions C05_access_message_grammar.
Theorem C05_command_message_grammar : forall msg,
  validate_cmd_msg msg = true <-> (zlen msg < 1400 /\ command_request msg).
Proof. exact validate_cmd_msg_iff. Qed.
Print Assumptions C05_command_message_grammar.
Theorem C05_nat_message_grammar : forall msg,
  validate_nat_access_msg msg = true <-> (zlen msg < 256 /\ nat_request msg).
Proof. exact validate_nat_access_msg_iff. Qed.
Print Assumptions C05_nat_message_grammar.
Example C05_ex : validate_access_msg ($ "10.1.2.3,tcp/22,udp/53") = true
  /\ validate_access_msg ($ "10.1.2.3,icmp/1") = false
  /\ validate_access_msg ($ "10.1.2.3,tcp/0") = false
  /\ validate_cmd_msg ($ "10.1.2.3,id -a") = true
  /\ validate_nat_access_msg ($ "192.168.1.2,22") = true
  /\ validate_nat_access_msg ($ "a/b,22") = false.
Proof. repeat split. Qed.

(** ** C06 user names *)
Theorem C06_username_validation : forall u, zlen u <= 64 ->
  validate_username u = true <-> username_text u.
Proof. exact validate_username_iff. Qed.
Print Assumptions C06_username_validation.
Theorem C06_username_setter : forall u, let t := truncate_username u in
  zlen t <= 63 /\ is_prefix t u = true /\ (zlen u <= 63 -> t = u) /\
  (validate_username t = true <-> username_text t).
Proof. exact username_setter. Qed.
Print Assumptions C06_username_setter.
Example C06_ex : validate_username ($ "alice.b@host") = true /\ validate_username ($ "a:b") = false
  /\ validate_username [] = false /\ truncate_username (repeat "a"%byte 70) = repeat "a"%byte 63.
Proof. repeat split. Qed.

(** ** C07 IPv4 text *)
Theorem C07_ipv4_validation : forall s len, 0 <= len <= zlen s ->
  is_valid_ipv4_addr s len = true <->
  (7 <= len <= 16 /\ exists a b c d, ipv4_text (ztake len s) a b c d).
Proof. exact is_valid_ipv4_iff. Qed.
Print Assumptions C07_ipv4_validation.
(** Canonical octets are read as decimal numbers, so ordinary dotted quads are accepted. *)
Theorem C07_canonical_octets : forall s v, canonical_octet s v -> c_number s v.
Proof. exact canonical_c_number. Qed.
Print Assumptions C07_canonical_octets.
Example C07_ex : is_valid_ipv4_addr ($ "10.1.2.255") 10 = true /\ is_valid_ipv4_addr ($ "10.1.2.256") 10 = false
  /\ is_valid_ipv4_addr ($ "10.1.2") 6 = false /\ canonical_octet ($ "255") 255 /\ canonical_octet ($ "0") 0.
Proof.
  repeat split; try discriminate; try (vm_compute; congruence); try (repeat constructor; vm_compute; congruence).
Qed.
(** Read as decimal, as the English property says, the bound of 255 can be exceeded:
    a group with a leading zero is octal. *)
Theorem C07_decimal_reading_refuted :
  exists s A B C D, is_valid_ipv4_addr s (zlen s) = true /\
    s = A ++ ["."%byte] ++ B ++ ["."%byte] ++ C ++ ["."%byte] ++ D /\
    all_digits A /\ decimal A > 255.
Proof.
  exists ($ "0377.1.1.1"), ($ "0377"), ($ "1"), ($ "1"), ($ "1").
  split; [reflexivity|]. split; [reflexivity|]. split; [|reflexivity].
  repeat constructor; vm_compute; congruence.
Qed.
Print Assumptions C07_decimal_reading_refuted.

(** ** C08 bounded integers *)
Theorem C08_bounded_int_range : forall s min max v,
  strtol_wrapper s min max = (v, STRTOL_OK) ->
  min <= v /\ (0 <= max -> v <= max) /\ -2147483648 <= v < 2147483648.
Proof. exact strtol_wrapper_range. Qed.
Print Assumptions C08_bounded_int_range.
Theorem C08_bounded_int_value_partial : forall s min max n,
  integer_text s n -> -2147483648 <= n < 2147483648 ->
  forall v e, strtol_wrapper s min max = (v, e) ->
  v = n /\ (e = STRTOL_OK <-> (min <= n /\ (0 <= max -> n <= max))).
Proof. exact strtol_wrapper_reads. Qed.
Print Assumptions C08_bounded_int_value_partial.
Theorem C08_every_text_has_a_number : forall s, exists n, integer_text s n.
Proof. exact integer_text_exists. Qed.
Print Assumptions C08_every_text_has_a_number.
Example C08_ex : integer_text ($ " -12x") (-12) /\ strtol_wrapper ($ " -12x") (-20) 0 = (-12, STRTOL_OK)
  /\ snd (strtol_wrapper ($ "70000") 1 65535) = STRTOL_GT_MAX.
Proof.
  split; [|split; reflexivity].
  exists ($ " "), ($ "-12x"). split; [reflexivity|]. split; [repeat constructor|].
  split; [vm_compute; intuition congruence|]. left. exists ($ "12x"), 12.
  split; [reflexivity|]. split; [|reflexivity]. exists ($ "12"), ($ "x").
  split; [reflexivity|]. split; [repeat constructor; vm_compute; congruence|].
  split; [right; vm_compute; intuition congruence|reflexivity].
Qed.
(** Without the 32 bit bound the property fails: a number beyond [int] is accepted as
    another one. *)
Theorem C08_truncation_refuted :
  exists s n v, integer_text s n /\ strtol_wrapper s 0 65535 = (v, STRTOL_OK) /\ v <> n /\ n > 65535.
Proof.
  exists ($ "4294967301"), 4294967301, 5.
  split; [|split; [reflexivity|split; [discriminate|reflexivity]]].
  exists [], ($ "4294967301"). split; [reflexivity|]. split; [constructor|].
  split; [vm_compute; intuition congruence|]. right; right. split; [discriminate|]. split; [discriminate|].
  exists ($ "4294967301"), []. split; [reflexivity|].
  split; [repeat constructor; vm_compute; congruence|]. split; [left; reflexivity|reflexivity].
Qed.
Print Assumptions C08_truncation_refuted.

(** ** C14 constant run time comparison *)
Theorem C14_constant_cmp_is_equality : forall a b len,
  0 <= len <= zlen a -> len <= zlen b ->
  exists r, constant_runtime_cmp a b len = Some r /\ (r = 0 <-> ztake len a = ztake len b).
Proof. exact constant_runtime_cmp_spec. Qed.
Print Assumptions C14_constant_cmp_is_equality.
Example C14_ex : constant_runtime_cmp ($ "abcd") ($ "abxd") 4 = Some (-1)
  /\ constant_runtime_cmp ($ "abcd") ($ "abxd") 2 = Some 0.
Proof. split; reflexivity. Qed.

(** ** C40 command line splitting *)
Theorem C40_split_words_partial : forall s ws,
  words s ws -> Forall (fun w => zlen w < 1024) ws ->
  strtoargv s = Ok (if zlen ws <? 29 then Some ws else None).
Proof. exact strtoargv_words. Qed.
Print Assumptions C40_split_words_partial.
Theorem C40_words_total : forall s, exists ws, words s ws.
Proof. exact words_exists. Qed.
Print Assumptions C40_words_total.
(** A word of 1024 or more characters overruns the buffer. *)
Theorem C40_long_word_overrun_refuted : forall s ws w,
  words s ws -> zlen ws <= 28 -> In w ws -> 1024 <= zlen w -> strtoargv s = Fault.
Proof. exact strtoargv_overrun. Qed.
Print Assumptions C40_long_word_overrun_refuted.
Example C40_ex : strtoargv ($ " iptables  -L x ") = Ok (Some [$ "iptables"; $ "-L"; $ "x"])
  /\ strtoargv (repeat "a"%byte 1024) = Fault.
Proof. split; vm_compute; reflexivity. Qed.

(** ** C41 strlcpy and strlcat *)
Theorem C41_strlcpy : forall dst src siz,
  0 < siz <= zlen dst -> no_nul src ->
  let '(dst', r) := strlcpy dst src siz in
  cstr dst' = ztake (siz - 1) src /\ zlen dst' = zlen dst /\
  zdrop siz dst' = zdrop siz dst /\ r = zlen src.
Proof. exact strlcpy_spec. Qed.
Print Assumptions C41_strlcpy.
Theorem C41_strlcat : forall dst src siz,
  0 < siz <= zlen dst -> no_nul src -> zlen (cstr dst) < siz ->
  let '(dst', r) := strlcat dst src siz in
  cstr dst' = cstr dst ++ ztake (siz - zlen (cstr dst) - 1) src /\
  zlen (cstr dst') < siz /\
  zlen dst' = zlen dst /\ zdrop siz dst' = zdrop siz dst /\ r = zlen (cstr dst) + zlen src.
Proof. exact strlcat_spec. Qed.
Print Assumptions C41_strlcat.
Example C41_ex : strlcpy ($ "zzzzzz") ($ "hello") 4 = ($ "hel" ++ [x00] ++ $ "zz", 5)
  /\ strlcat ($ "ab" ++ [x00] ++ $ "zzz") ($ "hello") 5 = ($ "abhe" ++ [x00] ++ $ "z", 7)
  /\ no_nul ($ "hello").
Proof. split; [reflexivity|]. split; [reflexivity|]. apply no_nulb_iff. reflexivity. Qed.

(** ** C42 host names *)
Theorem C42_hostname_validation : forall s,
  is_valid_hostname s (zlen s) = Ok true <-> (hostname s /\ zlen s <= 254).
Proof. exact is_valid_hostname_all. Qed.
Print Assumptions C42_hostname_validation.
Theorem C42_hostname_in_bounds_partial : forall s, s <> [] -> is_valid_hostname s (zlen s) <> Fault.
Proof. exact hostname_nofault. Qed.
Print Assumptions C42_hostname_in_bounds_partial.
Theorem C42_hostname_empty_refuted : is_valid_hostname [] 0 = Fault.
Proof. exact is_valid_hostname_empty_fault. Qed.
Print Assumptions C42_hostname_empty_refuted.
Example C42_ex : is_valid_hostname ($ "a-b.example.com") 15 = Ok true
  /\ is_valid_hostname ($ "a-.example.com") 14 = Ok false.
Proof. split; reflexivity. Qed.

(** ** C43 wiping *)
Theorem C43_zero_buf_success : forall buf len buf',
  zero_buf buf len = Ok (buf', true) ->
  zlen buf' = zlen buf /\ ztake len buf' = repeat x00 (Z.to_nat len) /\ zdrop len buf' = zdrop len buf.
Proof. exact zero_buf_spec. Qed.
Print Assumptions C43_zero_buf_success.
Theorem C43_zero_buf_failure : forall buf len buf', zero_buf buf len = Ok (buf', false) ->
  buf' = buf /\ (len < 0 \/ 1500 < len).
Proof. exact zero_buf_fail. Qed.
Print Assumptions C43_zero_buf_failure.
Theorem C43_zero_buf_total : forall buf len, 0 <= len <= 1500 -> len <= zlen buf ->
  exists buf', zero_buf buf len = Ok (buf', true).
Proof. exact zero_buf_ok. Qed.
Print Assumptions C43_zero_buf_total.
Example C43_ex : zero_buf ($ "secret!") 6 = Ok (repeat x00 6 ++ $ "!", true).
Proof. reflexivity. Qed.
