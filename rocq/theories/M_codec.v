(** Model of lib/fko_encode.c and lib/fko_decode.c.
    The hash functions of lib/digest.c are a parameter, one plain function per algorithm. *)
From Verif Require Import Bytes M_base64 M_util M_message.
From Coq Require Import Init.Byte List ZArith Bool.
Import ListNotations.
Open Scope Z_scope.

(** lib/fko.h:65-74, the message types. *)
Definition FKO_COMMAND_MSG : Z := 0.
Definition FKO_ACCESS_MSG : Z := 1.
Definition FKO_NAT_ACCESS_MSG : Z := 2.
Definition FKO_CLIENT_TIMEOUT_ACCESS_MSG : Z := 3.
Definition FKO_CLIENT_TIMEOUT_NAT_ACCESS_MSG : Z := 4.
Definition FKO_LOCAL_NAT_ACCESS_MSG : Z := 5.
Definition FKO_CLIENT_TIMEOUT_LOCAL_NAT_ACCESS_MSG : Z := 6.
Definition FKO_LAST_MSG_TYPE : Z := 7.

(** lib/fko.h:82-93, the digest types. *)
Definition FKO_DIGEST_MD5 : Z := 1.
Definition FKO_DIGEST_SHA1 : Z := 2.
Definition FKO_DIGEST_SHA256 : Z := 3.
Definition FKO_DIGEST_SHA384 : Z := 4.
Definition FKO_DIGEST_SHA512 : Z := 5.
Definition FKO_DIGEST_SHA3_256 : Z := 6.
Definition FKO_DIGEST_SHA3_512 : Z := 7.

(** The raw hash functions of lib/digest.c: [md5] 38, [sha1] 63, [sha256] 88, [sha384] 113,
    [sha512], [sha3_256], [sha3_512]. *)
Record hashes := mkHashes {
  h_md5 : bytes -> bytes; h_sha1 : bytes -> bytes; h_sha256 : bytes -> bytes;
  h_sha384 : bytes -> bytes; h_sha512 : bytes -> bytes;
  h_sha3_256 : bytes -> bytes; h_sha3_512 : bytes -> bytes }.

(** The hash selected by a digest type (also used for HMAC types, which have the same
    numbers: lib/fko.h:101-112). *)
Definition hash_of (H : hashes) (t : Z) : option (bytes -> bytes) :=
  if t =? 1 then Some (h_md5 H) else if t =? 2 then Some (h_sha1 H)
  else if t =? 3 then Some (h_sha256 H) else if t =? 4 then Some (h_sha384 H)
  else if t =? 5 then Some (h_sha512 H) else if t =? 6 then Some (h_sha3_256 H)
  else if t =? 7 then Some (h_sha3_512 H) else None.

(** lib/digest.c:50-58 and its siblings: hash, base64, drop the padding. *)
Definition digest_b64 (h : bytes -> bytes) (data : bytes) : bytes :=
  strip_b64_eq (b64_encode (h data)).

(** The fields of one SPA message (lib/fko_context.h:65-84). *)
Record spa := mkSpa {
  s_rand : bytes; s_user : bytes; s_time : Z; s_version : bytes; s_type : Z;
  s_msg : bytes; s_nat : option bytes; s_auth : option bytes; s_timeout : Z }.

(** lib/fko_limits.h:68. *)
Definition FKO_ENCODE_TMP_BUF_SIZE : Z := 1024.

(** [strlcat(tbuf, s, FKO_ENCODE_TMP_BUF_SIZE)] on the text held in the buffer; see
    [M_util.strlcat] for the loop and P_util2.strlcat_spec for the agreement. *)
Definition cat1024 (t s : bytes) : bytes := ztake (FKO_ENCODE_TMP_BUF_SIZE - 1) (t ++ s).

(** lib/fko_encode.c:40-74, [append_b64]. *)
Definition append_b64 (t s : bytes) : option bytes :=
  if zlen s >=? MAX_SPA_ENCODED_MSG_SIZE then None
  else Some (cat1024 t (strip_b64_eq (b64_encode s))).

(** [snprintf] with %u / %i of a non-negative number: its decimal digits.  The fuel is
    the number of digits allowed (10 are enough for 32 bits). *)
Fixpoint dec_go (fuel : nat) (n : Z) (acc : bytes) : bytes :=
  match fuel with
  | O => acc
  | S f => let acc' := zb (48 + n mod 10) :: acc in
           if n / 10 =? 0 then acc' else dec_go f (n / 10) acc'
  end.
Definition dec (n : Z) : bytes := dec_go 20 n [].
(** %i of an [int] *)
Definition dec_i (n : Z) : bytes := if n <? 0 then "-"%byte :: dec (- n) else dec n.

(** lib/fko_client_timeout.c:58-96: the message type that goes with a timeout. *)
Definition timeout_type (t timeout : Z) : Z :=
  if timeout >? 0 then
    if t =? FKO_ACCESS_MSG then FKO_CLIENT_TIMEOUT_ACCESS_MSG
    else if t =? FKO_NAT_ACCESS_MSG then FKO_CLIENT_TIMEOUT_NAT_ACCESS_MSG
    else if t =? FKO_LOCAL_NAT_ACCESS_MSG then FKO_CLIENT_TIMEOUT_LOCAL_NAT_ACCESS_MSG
    else t
  else
    if t =? FKO_CLIENT_TIMEOUT_ACCESS_MSG then FKO_ACCESS_MSG
    else if t =? FKO_CLIENT_TIMEOUT_NAT_ACCESS_MSG then FKO_NAT_ACCESS_MSG
    else if t =? FKO_CLIENT_TIMEOUT_LOCAL_NAT_ACCESS_MSG then FKO_LOCAL_NAT_ACCESS_MSG
    else t.

(** Sequencing of steps that may fail. *)
Definition obind {A B} (o : option A) (f : A -> option B) : option B :=
  match o with Some a => f a | None => None end.
Notation "'do' x <- a ; b" := (obind a (fun x => b)) (at level 200, x pattern, a at level 100, b at level 200).
Definition guard (b : bool) : option unit := if b then Some tt else None.

(** lib/fko_encode.c:135-217, the text built in [tbuf], for fields that passed the checks
    of lines 87-111.  The type is first adjusted to the timeout (line 154). *)
Definition encode_text (m : spa) : option bytes :=
  let ty := timeout_type (s_type m) (s_timeout m) in
  let t := ztake (FKO_ENCODE_TMP_BUF_SIZE - 1) (s_rand m) in
  let t := cat1024 t ($ ":") in
  do t <- append_b64 t (s_user m);
  let t := cat1024 t ($ ":" ++ dec (u32 (s_time m)) ++ $ ":") in
  let t := cat1024 t (s_version m) in
  let t := cat1024 t ($ ":" ++ dec_i ty ++ $ ":") in
  do t <- append_b64 t (s_msg m);
  do t <- match s_nat m with
          | Some n => append_b64 (cat1024 t ($ ":")) n
          | None => Some t
          end;
  do t <- match s_auth m with
          | Some a => append_b64 (cat1024 t ($ ":")) a
          | None => Some t
          end;
  Some (if (s_timeout m >? 0) && negb (ty =? FKO_COMMAND_MSG)
        then cat1024 t ($ ":" ++ dec_i (s_timeout m)) else t).

(** lib/fko_encode.c:79-235 on the fields: the validation before, the length check after. *)
Definition encode_spa (m : spa) : option bytes :=
  do _ <- guard (validate_username (s_user m)
                 && negb (zlen (s_version m) =? 0) && negb (zlen (s_msg m) =? 0));
  do _ <- guard (negb (s_type m =? FKO_NAT_ACCESS_MSG)
                 || match s_nat m with Some n => negb (zlen n =? 0) | None => false end);
  do t <- encode_text m;
  do _ <- guard (is_valid_encoded_msg_len (zlen t));
  Some t.

(** The plaintext handed to the cipher, lib/fko_encryption.c:101: encoded text, ':', digest
    (computed over the encoded text by lib/fko_digest.c:125-231). *)
Definition plaintext_of (H : hashes) (dt : Z) (m : spa) : option bytes :=
  do t <- encode_spa m;
  do h <- hash_of H dt;
  Some (t ++ ":"%byte :: digest_b64 h t).

(** ** Decoding *)

(** lib/fko_decode.c:45-60 ([num_fields]); fuel MAX_SPA_FIELDS+2. *)
Fixpoint num_fields_go (fuel : nat) (s : bytes) : Z :=
  match fuel with
  | O => 0
  | S f => match strchr ":"%byte s with
           | None => 0
           | Some r => 1 + num_fields_go f (tl r)
           end
  end.
Definition num_fields (s : bytes) : Z := num_fields_go 11 s.

(** lib/fko_decode.c:62-79 ([last_field]): offset just behind the last ':' (of the first
    MAX_SPA_FIELDS+2 ones). *)
Fixpoint last_field_go (fuel : nat) (s : bytes) : Z :=
  match fuel with
  | O => 0
  | S f => match strchr ":"%byte s with
           | None => 0
           | Some r => (zlen s - zlen r) + 1 + last_field_go f (tl r)
           end
  end.
Definition last_field (s : bytes) : Z := last_field_go 11 s.

(** lib/fko_decode.c:164-204, [is_valid_digest_len]: the digest type assumed from the length. *)
Definition digest_type_of_len (n : Z) : option Z :=
  if n =? 22 then Some FKO_DIGEST_MD5 else if n =? 27 then Some FKO_DIGEST_SHA1
  else if n =? 43 then Some FKO_DIGEST_SHA256 else if n =? 64 then Some FKO_DIGEST_SHA384
  else if n =? 86 then Some FKO_DIGEST_SHA512 else None.

(** [tbuf], FKO_ENCODE_TMP_BUF_SIZE zeroed bytes with a text at the front. *)
Definition in_tbuf (s : bytes) : bytes :=
  s ++ repeat x00 (Z.to_nat (FKO_ENCODE_TMP_BUF_SIZE - zlen s)).

Definition same_digest (a b : bytes) (len : Z) : bool :=
  match constant_runtime_cmp a b len with Some 0 => true | _ => false end.

(** lib/fko_decode.c:81-162, [verify_digest]: the digest type found, if any; a SHA256 or
    SHA512 sized digest is also tried as SHA3. *)
Definition verify_digest (H : hashes) (dt : Z) (dg data : bytes) (len : Z) : option Z :=
  let try h := same_digest dg (in_tbuf (digest_b64 h data)) len in
  if dt =? FKO_DIGEST_MD5 then if try (h_md5 H) then Some dt else None
  else if dt =? FKO_DIGEST_SHA1 then if try (h_sha1 H) then Some dt else None
  else if dt =? FKO_DIGEST_SHA256 then
    if try (h_sha256 H) then Some dt
    else if try (h_sha3_256 H) then Some FKO_DIGEST_SHA3_256 else None
  else if dt =? FKO_DIGEST_SHA384 then if try (h_sha384 H) then Some dt else None
  else if dt =? FKO_DIGEST_SHA512 then
    if try (h_sha512 H) then Some dt
    else if try (h_sha3_512 H) then Some FKO_DIGEST_SHA3_512 else None
  else None.

(** [strcspn(ndx, delimiter)] characters, and the place one past the delimiter
    ([ndx += t_size + 1]).  When there is no delimiter the latter points into the bytes
    zeroed at line 589, that is, it reads as an empty string. *)
Fixpoint field (s : bytes) : bytes * bytes :=
  match s with
  | [] => ([], [])
  | c :: r => if beq c ":"%byte then ([], r)
              else let '(a, b) := field r in (c :: a, b)
  end.

(** [b64_decode] of a field followed by reading the result as a C string. *)
Definition b64_field (s : bytes) : option bytes :=
  match b64_decode s with Some b => Some (cstr b) | None => None end.

Definition FKO_RAND_VAL_SIZE : Z := 16.

(** lib/fko_decode.c:507-525. *)
Definition parse_rand_val (s : bytes) : option (bytes * bytes) :=
  let '(f, r) := field s in
  do _ <- guard (negb (zlen f <? FKO_RAND_VAL_SIZE));
  Some (ztake FKO_RAND_VAL_SIZE f, r).

(** lib/fko_decode.c:478-505. *)
Definition parse_username (s : bytes) : option (bytes * bytes) :=
  let '(f, r) := field s in
  do _ <- guard (negb (zlen f <? 1) && negb (zlen f >? MAX_SPA_USERNAME_SIZE));
  do u <- b64_field f;
  do _ <- guard (validate_username u);
  Some (u, r).

(** lib/fko_decode.c:455-476. *)
Definition parse_timestamp (s : bytes) : option (Z * bytes) :=
  let '(f, r) := field s in
  do _ <- guard (negb (zlen f <? 1) && negb (zlen f >? MAX_SPA_TIMESTAMP_SIZE));
  let '(v, e) := strtol_wrapper f 0 (-1) in
  do _ <- guard (strtol_ok e);
  Some (u32 v, r).

(** lib/fko_decode.c:433-453. *)
Definition parse_version (s : bytes) : option (bytes * bytes) :=
  let '(f, r) := field s in
  do _ <- guard (negb (zlen f <? 1) && negb (zlen f >? MAX_SPA_VERSION_SIZE));
  Some (f, r).

(** lib/fko_decode.c:401-427: fields allowed behind the type. *)
Definition max_remaining (ty : Z) : option Z :=
  if (ty =? FKO_COMMAND_MSG) || (ty =? FKO_ACCESS_MSG) then Some 2
  else if (ty =? FKO_NAT_ACCESS_MSG) || (ty =? FKO_LOCAL_NAT_ACCESS_MSG)
          || (ty =? FKO_CLIENT_TIMEOUT_ACCESS_MSG) then Some 3
  else if (ty =? FKO_CLIENT_TIMEOUT_NAT_ACCESS_MSG)
          || (ty =? FKO_CLIENT_TIMEOUT_LOCAL_NAT_ACCESS_MSG) then Some 4
  else None.

(** lib/fko_decode.c:377-431; [num_fields] still counts from the start of the type field. *)
Definition parse_msg_type (s : bytes) : option (Z * bytes) :=
  let '(f, r) := field s in
  do _ <- guard (negb (zlen f <? 1) && negb (zlen f >? MAX_SPA_MESSAGE_TYPE_SIZE));
  let '(v, e) := strtol_wrapper f 0 (FKO_LAST_MSG_TYPE - 1) in
  do _ <- guard (strtol_ok e);
  do k <- max_remaining v;
  do _ <- guard (negb (num_fields s >? k));
  Some (v, r).

(** lib/fko_decode.c:206-249. *)
Definition parse_msg (ty : Z) (s : bytes) : option (bytes * bytes) :=
  let '(f, r) := field s in
  do _ <- guard (negb (zlen f <? 1) && negb (zlen f >? MAX_SPA_MESSAGE_SIZE));
  do m <- b64_field f;
  do _ <- guard (if ty =? FKO_COMMAND_MSG then validate_cmd_msg m else validate_access_msg m);
  Some (m, r).

Definition is_nat_type (ty : Z) : bool :=
  (ty =? FKO_NAT_ACCESS_MSG) || (ty =? FKO_LOCAL_NAT_ACCESS_MSG)
  || (ty =? FKO_CLIENT_TIMEOUT_NAT_ACCESS_MSG) || (ty =? FKO_CLIENT_TIMEOUT_LOCAL_NAT_ACCESS_MSG).
Definition is_timeout_type (ty : Z) : bool :=
  (ty =? FKO_CLIENT_TIMEOUT_ACCESS_MSG) || (ty =? FKO_CLIENT_TIMEOUT_NAT_ACCESS_MSG)
  || (ty =? FKO_CLIENT_TIMEOUT_LOCAL_NAT_ACCESS_MSG).

(** lib/fko_decode.c:251-284. *)
Definition parse_nat_msg (ty : Z) (s : bytes) : option (option bytes * bytes) :=
  if is_nat_type ty then
    let '(f, r) := field s in
    do _ <- guard (negb (zlen f <? 1) && negb (zlen f >? MAX_SPA_MESSAGE_SIZE));
    do n <- b64_field f;
    do _ <- guard (validate_nat_access_msg n);
    Some (Some n, r)
  else Some (None, s).

(** lib/fko_decode.c:286-346. *)
Definition parse_server_auth (ty : Z) (s : bytes) : option (option bytes * bytes) :=
  if zlen s =? 0 then Some (None, s)
  else if zlen s >? MAX_SPA_MESSAGE_SIZE then None
  else if is_timeout_type ty then
    match strchr ":"%byte s with
    | Some _ => let '(f, r) := field s in
                do a <- b64_field f; Some (Some a, r)
    | None => Some (None, s)
    end
  else do a <- b64_field s; Some (Some a, s).

(** lib/fko_decode.c:348-375; 0 when the type carries no timeout (the context field is
    left alone, and is 0 in a fresh context). *)
Definition parse_client_timeout (ty : Z) (s : bytes) : option Z :=
  if is_timeout_type ty then
    do _ <- guard (negb (zlen s <? 1) && negb (zlen s >? MAX_SPA_MESSAGE_SIZE));
    do _ <- guard (forallb isdigit s);
    let '(v, e) := strtol_wrapper s 0 65536 in
    do _ <- guard (strtol_ok e);
    Some (u32 v)
  else Some 0.

(** lib/fko_decode.c:612-622, the nine parsers in order. *)
Definition parse_fields (s : bytes) : option spa :=
  do (rv, s) <- parse_rand_val s;
  do (us, s) <- parse_username s;
  do (ts, s) <- parse_timestamp s;
  do (ve, s) <- parse_version s;
  do (ty, s) <- parse_msg_type s;
  do (ms, s) <- parse_msg ty s;
  do (na, s) <- parse_nat_msg ty s;
  do (au, s) <- parse_server_auth ty s;
  do ct <- parse_client_timeout ty s;
  Some (mkSpa rv us ts ve ty ms na au ct).

(** lib/fko_decode.c:549-607: the split between message and digest, and the bytes the
    digest is computed over.  [buf] is the decrypted data, [encoded_msg_len] bytes, and is
    followed by a NUL.  Line 589 zeroes [t_size] bytes starting at the ':' before the
    digest, and the digest covers [encoded_msg_len - (t_size+1)] bytes of the result. *)
Definition decode_spa (H : hashes) (buf : bytes) : option (spa * Z * bytes) :=
  do _ <- guard (is_valid_encoded_msg_len (zlen buf));
  let s := cstr buf in
  do _ <- guard (forallb isprint s);
  do _ <- guard (negb (num_fields s <? 6));
  let pos := last_field s in
  let dg := zdrop pos s in
  let t_size := strnlen dg 87 in
  do dt0 <- digest_type_of_len t_size;
  do _ <- guard (negb (zlen buf - t_size <? 0));
  let buf' := ztake (pos - 1) buf ++ repeat x00 (Z.to_nat t_size)
                ++ zdrop (pos - 1 + t_size) buf in
  let data := ztake (zlen buf - (t_size + 1)) buf' in
  do dt <- verify_digest H dt0 dg data t_size;
  do m <- parse_fields (cstr buf');
  Some (m, dt, dg).
