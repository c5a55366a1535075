(** Specification of the SPA message text (the plaintext protocol), used by C03 and C04.
    Only the record [spa] of field values and the names of the hash functions are taken
    from the model. *)
From Verif Require Import Bytes S_base64 S_text M_codec.
From Coq Require Import Init.Byte List ZArith Bool.
Import ListNotations.
Open Scope Z_scope.

(** RFC 4648 text without its padding. *)
Definition b64_text (l : bytes) : bytes := filter (fun c => negb (beq c "="%byte)) (rfc4648 l).

(** The only facts used about the hash functions: their output lengths. *)
Definition hashes_ok (H : hashes) : Prop := forall d,
  zlen (h_md5 H d) = 16 /\ zlen (h_sha1 H d) = 20 /\ zlen (h_sha256 H d) = 32 /\
  zlen (h_sha384 H d) = 48 /\ zlen (h_sha512 H d) = 64 /\
  zlen (h_sha3_256 H d) = 32 /\ zlen (h_sha3_512 H d) = 64.

(** The hash with the given number (1 MD5, 2 SHA1, 3 SHA256, 4 SHA384, 5 SHA512,
    6 SHA3-256, 7 SHA3-512). *)
Inductive hash_number (H : hashes) : Z -> (bytes -> bytes) -> Prop :=
| hn_md5 : hash_number H 1 (h_md5 H)
| hn_sha1 : hash_number H 2 (h_sha1 H)
| hn_sha256 : hash_number H 3 (h_sha256 H)
| hn_sha384 : hash_number H 4 (h_sha384 H)
| hn_sha512 : hash_number H 5 (h_sha512 H)
| hn_sha3_256 : hash_number H 6 (h_sha3_256 H)
| hn_sha3_512 : hash_number H 7 (h_sha3_512 H).

(** Message types: 0 command, 1 access, 2 NAT, 3 access with timeout, 4 NAT with timeout,
    5 local NAT, 6 local NAT with timeout. *)
Definition nat_type (t : Z) : Prop := t = 2 \/ t = 4 \/ t = 5 \/ t = 6.
Definition timed_type (t : Z) : Prop := t = 3 \/ t = 4 \/ t = 6.

Definition plain_text (s : bytes) : Prop := Forall printable s /\ ~ In ":"%byte s.

(** Field values that make sense for a message and fit the receiver's limits.  The limits
    marked (r) are the receiver's; the setters allow more. *)
Record sendable (m : spa) : Prop := {
  sd_rand : zlen (s_rand m) = 16 /\ plain_text (s_rand m);
  sd_user : username_text (s_user m) /\ zlen (s_user m) <= 48;               (* (r) *)
  sd_time : 0 <= s_time m < 2147483648;                                      (* (r) *)
  sd_version : 1 <= zlen (s_version m) <= 8 /\ plain_text (s_version m);
  sd_type : 0 <= s_type m <= 6;
  sd_msg : (if s_type m =? 0 then command_request (s_msg m) else access_request (s_msg m)) /\
           no_nul (s_msg m) /\ zlen (s_msg m) <= 192;                        (* (r) *)
  sd_nat : match s_nat m with
           | Some n => nat_type (s_type m) /\ nat_request n /\ no_nul n /\ zlen n <= 192
           | None => ~ nat_type (s_type m)
           end;
  sd_auth : match s_auth m with
            | Some a => 1 <= zlen a <= 63 /\ no_nul a
            | None => True
            end;
  sd_timeout : 0 <= s_timeout m <= 65536 /\                                  (* (r) *)
               (s_timeout m > 0 <-> timed_type (s_type m)) }.

(** The fields of a received text, in order. *)
Definition opt_list {A} (o : option A) : list A := match o with Some a => [a] | None => [] end.

(** What the receiver may conclude from an accepted message: values by themselves. *)
Record received (m : spa) : Prop := {
  rc_rand : zlen (s_rand m) = 16 /\ plain_text (s_rand m);
  rc_user : username_text (s_user m) /\ zlen (s_user m) <= 48;
  rc_time : 0 <= s_time m < 2147483648;
  rc_version : 1 <= zlen (s_version m) <= 8 /\ plain_text (s_version m);
  rc_type : 0 <= s_type m <= 6;
  rc_msg : (if s_type m =? 0 then command_request (s_msg m) else access_request (s_msg m)) /\
           no_nul (s_msg m) /\ zlen (s_msg m) <= 192;
  rc_nat : match s_nat m with
           | Some n => nat_type (s_type m) /\ nat_request n /\ no_nul n /\ zlen n <= 192
           | None => ~ nat_type (s_type m)
           end;
  rc_timeout : 0 <= s_timeout m <= 65536 /\ (s_timeout m > 0 -> timed_type (s_type m)) }.

(** ... and how they are written: [fs] are the ':' separated fields before the digest.
    [dec b f v]: the field [f] is base64 text for a string that starts with [v], up to its
    first NUL. *)
Record written (dec : bytes -> bytes -> Prop) (fs : list bytes) (m : spa) : Prop := {
  wr_fields : exists fr fu ft fv fy fm fn fa fo,
    fs = [fr; fu; ft; fv; fy; fm] ++ opt_list fn ++ opt_list fa ++ opt_list fo /\
    (exists more, fr = s_rand m ++ more) /\
    dec fu (s_user m) /\
    (exists n, integer_text ft n /\ (s_time m = n mod 4294967296)) /\
    fv = s_version m /\
    integer_text fy (s_type m) /\
    dec fm (s_msg m) /\
    match fn, s_nat m with
    | Some f, Some v => dec f v
    | None, None => True
    | _, _ => False
    end /\
    match fa, s_auth m with
    | Some f, Some v => dec f v
    | None, None => True
    | Some [], None => True
    | _, _ => False
    end /\
    match fo with
    | Some f => timed_type (s_type m) /\ all_digits f /\ decimal f mod 4294967296 = s_timeout m
    | None => s_timeout m = 0
    end }.

(** What the setters accept, field by field, for a message of the stated type. *)
Record settable (m : spa) : Prop := {
  st_rand : zlen (s_rand m) = 16 /\ no_nul (s_rand m);
  st_user : username_text (s_user m) /\ zlen (s_user m) <= 63;
  st_time : 0 <= s_time m < 4294967296;
  st_version : s_version m = $ "3.0.0";
  st_type : 0 <= s_type m <= 6;
  st_msg : (if s_type m =? 0 then command_request (s_msg m) else access_request (s_msg m)) /\
           no_nul (s_msg m) /\ zlen (s_msg m) < 256;
  st_nat : match s_nat m with Some n => nat_request n /\ no_nul n /\ zlen n < 128 | None => True end;
  st_auth : match s_auth m with Some a => 1 <= zlen a <= 63 /\ no_nul a | None => True end;
  st_timeout : 0 <= s_timeout m < 2147483648 }.
