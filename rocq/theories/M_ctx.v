(** Model of the libfko context and of the functions on it: lib/fko_context.h, fko_state.h,
    fko_funcs.c, fko_rand_value.c, fko_user.c, fko_timestamp.c, fko_message.c,
    fko_nat_access.c, fko_server_auth.c, fko_client_timeout.c, fko_digest.c, fko_encode.c,
    fko_encryption.c, fko_hmac.c, fko_decode.c and the end of cipher_funcs.c.

    Simplifications, throughout: memory allocation and wiping do not fail; the build has no
    gpgme (HAVE_LIBGPGME 0); a key is a byte list together with its length, so that calls
    with a negative length, which return FKO_ERROR_INVALID_KEY_LEN at once, do not occur;
    getters get a non-NULL place to write to. *)
From Verif Require Import Bytes M_base64 M_util M_message M_codec M_cipher.
From Coq Require Import Init.Byte List ZArith Bool.
Import ListNotations.
Open Scope Z_scope.

(** lib/fko.h:151-295, the error codes that occur below.  The codes of the message decoder
    (FKO_ERROR_INVALID_DATA_DECODE_..., FKO_ERROR_INVALID_DIGEST_TYPE when found there) are
    merged into one, and so are those of the message validators. *)
Inductive err :=
| FKO_SUCCESS | FKO_ERROR_CTX_NOT_INITIALIZED | FKO_ERROR_FILESYSTEM_OPERATION
| FKO_ERROR_INVALID_DATA
| FKO_ERROR_INVALID_DATA_DECODE
| FKO_ERROR_INVALID_DATA_CLIENT_TIMEOUT_NEGATIVE
| FKO_ERROR_INVALID_DATA_DECODE_MSGLEN_VALIDFAIL
| FKO_ERROR_INVALID_DATA_ENCODE_MESSAGE_TOOBIG
| FKO_ERROR_INVALID_DATA_ENCODE_MSGLEN_VALIDFAIL
| FKO_ERROR_INVALID_DATA_ENCODE_DIGEST_VALIDFAIL
| FKO_ERROR_INVALID_DATA_ENCODE_DIGEST_TOOBIG
| FKO_ERROR_INVALID_DATA_ENCODE_NOTBASE64
| FKO_ERROR_INVALID_DATA_ENCRYPT_MSGLEN_VALIDFAIL
| FKO_ERROR_INVALID_DATA_ENCRYPT_DIGESTLEN_VALIDFAIL
| FKO_ERROR_INVALID_DATA_ENCRYPT_PTLEN_VALIDFAIL
| FKO_ERROR_INVALID_DATA_ENCRYPT_RESULT_MSGLEN_VALIDFAIL
| FKO_ERROR_INVALID_DATA_ENCRYPT_CIPHERLEN_DECODEFAIL
| FKO_ERROR_INVALID_DATA_ENCRYPT_CIPHERLEN_VALIDFAIL
| FKO_ERROR_INVALID_DATA_ENCRYPT_TYPE_VALIDFAIL
| FKO_ERROR_INVALID_DATA_ENCRYPT_MODE_VALIDFAIL
| FKO_ERROR_INVALID_DATA_ENCRYPT_TYPE_UNKNOWN
| FKO_ERROR_INVALID_DATA_FUNCS_NEW_ENCMSG_MISSING
| FKO_ERROR_INVALID_DATA_FUNCS_NEW_MSGLEN_VALIDFAIL
| FKO_ERROR_INVALID_DATA_FUNCS_SET_MSGLEN_VALIDFAIL
| FKO_ERROR_INVALID_DATA_HMAC_MSGLEN_VALIDFAIL
| FKO_ERROR_INVALID_DATA_HMAC_ENCMSGLEN_VALIDFAIL
| FKO_ERROR_INVALID_DATA_HMAC_COMPAREFAIL
| FKO_ERROR_INVALID_DATA_HMAC_TYPE_VALIDFAIL
| FKO_ERROR_INVALID_DATA_HMAC_LEN_VALIDFAIL
| FKO_ERROR_INVALID_DATA_MESSAGE_TYPE_VALIDFAIL
| FKO_ERROR_INVALID_DATA_MESSAGE_EMPTY
| FKO_ERROR_INVALID_DATA_MESSAGE_FORMAT
| FKO_ERROR_INVALID_DATA_NAT_EMPTY
| FKO_ERROR_INVALID_DATA_RAND_LEN_VALIDFAIL
| FKO_ERROR_INVALID_DATA_SRVAUTH_MISSING
| FKO_ERROR_INVALID_DATA_TIMESTAMP_VALIDFAIL
| FKO_ERROR_INVALID_DATA_USER
| FKO_ERROR_DATA_TOO_LARGE | FKO_ERROR_INVALID_KEY_LEN
| FKO_ERROR_INCOMPLETE_SPA_DATA | FKO_ERROR_MISSING_ENCODED_DATA
| FKO_ERROR_INVALID_DIGEST_TYPE | FKO_ERROR_INVALID_ENCRYPTION_TYPE
| FKO_ERROR_DECRYPTION_SIZE | FKO_ERROR_DECRYPTION_FAILURE
| FKO_ERROR_DIGEST_VERIFICATION_FAILED
| FKO_ERROR_INVALID_HMAC_KEY_LEN | FKO_ERROR_UNSUPPORTED_HMAC_MODE
| FKO_ERROR_UNSUPPORTED_FEATURE | FKO_ERROR_ZERO_OUT_DATA | FKO_ERROR_UNKNOWN.

Definition ok (e : err) : bool := match e with FKO_SUCCESS => true | _ => false end.

(** lib/fko_context.h:65-137, [struct fko_context].  [None] is a NULL pointer.  [c_enc] is
    [encoded_msg]: its first [encoded_msg_len] bytes, which are followed by a NUL; [c_crypt]
    is the C string [encrypted_msg].  The lengths that the code stores are kept where they
    can differ from the length of the text.  [c_dirty] is the disjunction of the four flags
    of FKO_SPA_DATA_MODIFIED (lib/fko_state.h:72-79): the code never looks at them one by
    one.  The other flags and [initval] are constant while the context is alive. *)
Record ctx := mkCtx {
  c_rand : option bytes;
  c_user : option bytes;
  c_time : Z;
  c_type : Z;
  c_msg : option bytes;
  c_nat : option bytes;
  c_auth : option bytes;
  c_timeout : Z;
  c_dtype : Z;
  c_etype : Z;
  c_mode : Z;
  c_htype : Z;
  c_version : option bytes;
  c_digest : option bytes;
  c_digest_len : Z;
  c_raw : option bytes;
  c_raw_type : Z;
  c_enc : option bytes;
  c_enc_len : Z;
  c_crypt : option bytes;
  c_crypt_len : Z;
  c_hmac : option bytes;
  c_salted : bool;
  c_gpg : bool;
  c_dirty : bool }.

Definition set_c_rand (v : option bytes) (c : ctx) : ctx := mkCtx v (c_user c) (c_time c) (c_type c) (c_msg c) (c_nat c) (c_auth c) (c_timeout c) (c_dtype c) (c_etype c) (c_mode c) (c_htype c) (c_version c) (c_digest c) (c_digest_len c) (c_raw c) (c_raw_type c) (c_enc c) (c_enc_len c) (c_crypt c) (c_crypt_len c) (c_hmac c) (c_salted c) (c_gpg c) (c_dirty c).
Definition set_c_user (v : option bytes) (c : ctx) : ctx := mkCtx (c_rand c) v (c_time c) (c_type c) (c_msg c) (c_nat c) (c_auth c) (c_timeout c) (c_dtype c) (c_etype c) (c_mode c) (c_htype c) (c_version c) (c_digest c) (c_digest_len c) (c_raw c) (c_raw_type c) (c_enc c) (c_enc_len c) (c_crypt c) (c_crypt_len c) (c_hmac c) (c_salted c) (c_gpg c) (c_dirty c).
Definition set_c_time (v : Z) (c : ctx) : ctx := mkCtx (c_rand c) (c_user c) v (c_type c) (c_msg c) (c_nat c) (c_auth c) (c_timeout c) (c_dtype c) (c_etype c) (c_mode c) (c_htype c) (c_version c) (c_digest c) (c_digest_len c) (c_raw c) (c_raw_type c) (c_enc c) (c_enc_len c) (c_crypt c) (c_crypt_len c) (c_hmac c) (c_salted c) (c_gpg c) (c_dirty c).
Definition set_c_type (v : Z) (c : ctx) : ctx := mkCtx (c_rand c) (c_user c) (c_time c) v (c_msg c) (c_nat c) (c_auth c) (c_timeout c) (c_dtype c) (c_etype c) (c_mode c) (c_htype c) (c_version c) (c_digest c) (c_digest_len c) (c_raw c) (c_raw_type c) (c_enc c) (c_enc_len c) (c_crypt c) (c_crypt_len c) (c_hmac c) (c_salted c) (c_gpg c) (c_dirty c).
Definition set_c_msg (v : option bytes) (c : ctx) : ctx := mkCtx (c_rand c) (c_user c) (c_time c) (c_type c) v (c_nat c) (c_auth c) (c_timeout c) (c_dtype c) (c_etype c) (c_mode c) (c_htype c) (c_version c) (c_digest c) (c_digest_len c) (c_raw c) (c_raw_type c) (c_enc c) (c_enc_len c) (c_crypt c) (c_crypt_len c) (c_hmac c) (c_salted c) (c_gpg c) (c_dirty c).
Definition set_c_nat (v : option bytes) (c : ctx) : ctx := mkCtx (c_rand c) (c_user c) (c_time c) (c_type c) (c_msg c) v (c_auth c) (c_timeout c) (c_dtype c) (c_etype c) (c_mode c) (c_htype c) (c_version c) (c_digest c) (c_digest_len c) (c_raw c) (c_raw_type c) (c_enc c) (c_enc_len c) (c_crypt c) (c_crypt_len c) (c_hmac c) (c_salted c) (c_gpg c) (c_dirty c).
Definition set_c_auth (v : option bytes) (c : ctx) : ctx := mkCtx (c_rand c) (c_user c) (c_time c) (c_type c) (c_msg c) (c_nat c) v (c_timeout c) (c_dtype c) (c_etype c) (c_mode c) (c_htype c) (c_version c) (c_digest c) (c_digest_len c) (c_raw c) (c_raw_type c) (c_enc c) (c_enc_len c) (c_crypt c) (c_crypt_len c) (c_hmac c) (c_salted c) (c_gpg c) (c_dirty c).
Definition set_c_timeout (v : Z) (c : ctx) : ctx := mkCtx (c_rand c) (c_user c) (c_time c) (c_type c) (c_msg c) (c_nat c) (c_auth c) v (c_dtype c) (c_etype c) (c_mode c) (c_htype c) (c_version c) (c_digest c) (c_digest_len c) (c_raw c) (c_raw_type c) (c_enc c) (c_enc_len c) (c_crypt c) (c_crypt_len c) (c_hmac c) (c_salted c) (c_gpg c) (c_dirty c).
Definition set_c_dtype (v : Z) (c : ctx) : ctx := mkCtx (c_rand c) (c_user c) (c_time c) (c_type c) (c_msg c) (c_nat c) (c_auth c) (c_timeout c) v (c_etype c) (c_mode c) (c_htype c) (c_version c) (c_digest c) (c_digest_len c) (c_raw c) (c_raw_type c) (c_enc c) (c_enc_len c) (c_crypt c) (c_crypt_len c) (c_hmac c) (c_salted c) (c_gpg c) (c_dirty c).
Definition set_c_etype (v : Z) (c : ctx) : ctx := mkCtx (c_rand c) (c_user c) (c_time c) (c_type c) (c_msg c) (c_nat c) (c_auth c) (c_timeout c) (c_dtype c) v (c_mode c) (c_htype c) (c_version c) (c_digest c) (c_digest_len c) (c_raw c) (c_raw_type c) (c_enc c) (c_enc_len c) (c_crypt c) (c_crypt_len c) (c_hmac c) (c_salted c) (c_gpg c) (c_dirty c).
Definition set_c_mode (v : Z) (c : ctx) : ctx := mkCtx (c_rand c) (c_user c) (c_time c) (c_type c) (c_msg c) (c_nat c) (c_auth c) (c_timeout c) (c_dtype c) (c_etype c) v (c_htype c) (c_version c) (c_digest c) (c_digest_len c) (c_raw c) (c_raw_type c) (c_enc c) (c_enc_len c) (c_crypt c) (c_crypt_len c) (c_hmac c) (c_salted c) (c_gpg c) (c_dirty c).
Definition set_c_htype (v : Z) (c : ctx) : ctx := mkCtx (c_rand c) (c_user c) (c_time c) (c_type c) (c_msg c) (c_nat c) (c_auth c) (c_timeout c) (c_dtype c) (c_etype c) (c_mode c) v (c_version c) (c_digest c) (c_digest_len c) (c_raw c) (c_raw_type c) (c_enc c) (c_enc_len c) (c_crypt c) (c_crypt_len c) (c_hmac c) (c_salted c) (c_gpg c) (c_dirty c).
Definition set_c_version (v : option bytes) (c : ctx) : ctx := mkCtx (c_rand c) (c_user c) (c_time c) (c_type c) (c_msg c) (c_nat c) (c_auth c) (c_timeout c) (c_dtype c) (c_etype c) (c_mode c) (c_htype c) v (c_digest c) (c_digest_len c) (c_raw c) (c_raw_type c) (c_enc c) (c_enc_len c) (c_crypt c) (c_crypt_len c) (c_hmac c) (c_salted c) (c_gpg c) (c_dirty c).
Definition set_c_digest (v : option bytes) (c : ctx) : ctx := mkCtx (c_rand c) (c_user c) (c_time c) (c_type c) (c_msg c) (c_nat c) (c_auth c) (c_timeout c) (c_dtype c) (c_etype c) (c_mode c) (c_htype c) (c_version c) v (c_digest_len c) (c_raw c) (c_raw_type c) (c_enc c) (c_enc_len c) (c_crypt c) (c_crypt_len c) (c_hmac c) (c_salted c) (c_gpg c) (c_dirty c).
Definition set_c_digest_len (v : Z) (c : ctx) : ctx := mkCtx (c_rand c) (c_user c) (c_time c) (c_type c) (c_msg c) (c_nat c) (c_auth c) (c_timeout c) (c_dtype c) (c_etype c) (c_mode c) (c_htype c) (c_version c) (c_digest c) v (c_raw c) (c_raw_type c) (c_enc c) (c_enc_len c) (c_crypt c) (c_crypt_len c) (c_hmac c) (c_salted c) (c_gpg c) (c_dirty c).
Definition set_c_raw (v : option bytes) (c : ctx) : ctx := mkCtx (c_rand c) (c_user c) (c_time c) (c_type c) (c_msg c) (c_nat c) (c_auth c) (c_timeout c) (c_dtype c) (c_etype c) (c_mode c) (c_htype c) (c_version c) (c_digest c) (c_digest_len c) v (c_raw_type c) (c_enc c) (c_enc_len c) (c_crypt c) (c_crypt_len c) (c_hmac c) (c_salted c) (c_gpg c) (c_dirty c).
Definition set_c_raw_type (v : Z) (c : ctx) : ctx := mkCtx (c_rand c) (c_user c) (c_time c) (c_type c) (c_msg c) (c_nat c) (c_auth c) (c_timeout c) (c_dtype c) (c_etype c) (c_mode c) (c_htype c) (c_version c) (c_digest c) (c_digest_len c) (c_raw c) v (c_enc c) (c_enc_len c) (c_crypt c) (c_crypt_len c) (c_hmac c) (c_salted c) (c_gpg c) (c_dirty c).
Definition set_c_enc (v : option bytes) (c : ctx) : ctx := mkCtx (c_rand c) (c_user c) (c_time c) (c_type c) (c_msg c) (c_nat c) (c_auth c) (c_timeout c) (c_dtype c) (c_etype c) (c_mode c) (c_htype c) (c_version c) (c_digest c) (c_digest_len c) (c_raw c) (c_raw_type c) v (c_enc_len c) (c_crypt c) (c_crypt_len c) (c_hmac c) (c_salted c) (c_gpg c) (c_dirty c).
Definition set_c_enc_len (v : Z) (c : ctx) : ctx := mkCtx (c_rand c) (c_user c) (c_time c) (c_type c) (c_msg c) (c_nat c) (c_auth c) (c_timeout c) (c_dtype c) (c_etype c) (c_mode c) (c_htype c) (c_version c) (c_digest c) (c_digest_len c) (c_raw c) (c_raw_type c) (c_enc c) v (c_crypt c) (c_crypt_len c) (c_hmac c) (c_salted c) (c_gpg c) (c_dirty c).
Definition set_c_crypt (v : option bytes) (c : ctx) : ctx := mkCtx (c_rand c) (c_user c) (c_time c) (c_type c) (c_msg c) (c_nat c) (c_auth c) (c_timeout c) (c_dtype c) (c_etype c) (c_mode c) (c_htype c) (c_version c) (c_digest c) (c_digest_len c) (c_raw c) (c_raw_type c) (c_enc c) (c_enc_len c) v (c_crypt_len c) (c_hmac c) (c_salted c) (c_gpg c) (c_dirty c).
Definition set_c_crypt_len (v : Z) (c : ctx) : ctx := mkCtx (c_rand c) (c_user c) (c_time c) (c_type c) (c_msg c) (c_nat c) (c_auth c) (c_timeout c) (c_dtype c) (c_etype c) (c_mode c) (c_htype c) (c_version c) (c_digest c) (c_digest_len c) (c_raw c) (c_raw_type c) (c_enc c) (c_enc_len c) (c_crypt c) v (c_hmac c) (c_salted c) (c_gpg c) (c_dirty c).
Definition set_c_hmac (v : option bytes) (c : ctx) : ctx := mkCtx (c_rand c) (c_user c) (c_time c) (c_type c) (c_msg c) (c_nat c) (c_auth c) (c_timeout c) (c_dtype c) (c_etype c) (c_mode c) (c_htype c) (c_version c) (c_digest c) (c_digest_len c) (c_raw c) (c_raw_type c) (c_enc c) (c_enc_len c) (c_crypt c) (c_crypt_len c) v (c_salted c) (c_gpg c) (c_dirty c).
Definition set_c_salted (v : bool) (c : ctx) : ctx := mkCtx (c_rand c) (c_user c) (c_time c) (c_type c) (c_msg c) (c_nat c) (c_auth c) (c_timeout c) (c_dtype c) (c_etype c) (c_mode c) (c_htype c) (c_version c) (c_digest c) (c_digest_len c) (c_raw c) (c_raw_type c) (c_enc c) (c_enc_len c) (c_crypt c) (c_crypt_len c) (c_hmac c) v (c_gpg c) (c_dirty c).
Definition set_c_gpg (v : bool) (c : ctx) : ctx := mkCtx (c_rand c) (c_user c) (c_time c) (c_type c) (c_msg c) (c_nat c) (c_auth c) (c_timeout c) (c_dtype c) (c_etype c) (c_mode c) (c_htype c) (c_version c) (c_digest c) (c_digest_len c) (c_raw c) (c_raw_type c) (c_enc c) (c_enc_len c) (c_crypt c) (c_crypt_len c) (c_hmac c) (c_salted c) v (c_dirty c).
Definition set_c_dirty (v : bool) (c : ctx) : ctx := mkCtx (c_rand c) (c_user c) (c_time c) (c_type c) (c_msg c) (c_nat c) (c_auth c) (c_timeout c) (c_dtype c) (c_etype c) (c_mode c) (c_htype c) (c_version c) (c_digest c) (c_digest_len c) (c_raw c) (c_raw_type c) (c_enc c) (c_enc_len c) (c_crypt c) (c_crypt_len c) (c_hmac c) (c_salted c) (c_gpg c) v.

(** A handle to a context: NULL, a live context, or a pointer to one that was destroyed.
    Reading through the latter is undefined behaviour. *)
Inductive handle := Null | Live (c : ctx) | Freed.

(** The check CTX_INITIALIZED (lib/fko_state.h:89) at the start of a function: [body] runs
    on a live context and returns the code and the new context. *)
Definition api (h : handle) (body : ctx -> outcome (err * ctx)) : outcome (err * handle) :=
  match h with
  | Null => Ok (FKO_ERROR_CTX_NOT_INITIALIZED, h)
  | Freed => Fault
  | Live c => match body c with
              | Ok (e, c') => Ok (e, Live c')
              | Fault => Fault
              end
  end.
(** The same for a getter. *)
Definition getter {A} (h : handle) (f : ctx -> A) : outcome (err * option A) :=
  match h with
  | Null => Ok (FKO_ERROR_CTX_NOT_INITIALIZED, None)
  | Freed => Fault
  | Live c => Ok (FKO_SUCCESS, Some (f c))
  end.

(** ** Setters.  Each is given on a live context; [api] adds the handle. *)

(** lib/fko_rand_value.c:73-95. *)
Definition set_rand_value (v : bytes) (c : ctx) : err * ctx :=
  if negb (strnlen v (FKO_RAND_VAL_SIZE + 1) =? FKO_RAND_VAL_SIZE)
  then (FKO_ERROR_INVALID_DATA_RAND_LEN_VALIDFAIL, c)
  else (FKO_SUCCESS, set_c_dirty true (set_c_rand (Some v) c)).

(** lib/fko_rand_value.c:147-153: decimal numbers from [rand()] glued together until there
    are FKO_RAND_VAL_SIZE characters.  [rnd i] is the value of the i-th call.  Every round
    adds a character, so that FKO_RAND_VAL_SIZE rounds are enough fuel. *)
Fixpoint rand_loop (fuel : nat) (rnd : nat -> Z) (i : nat) (v : bytes) : bytes :=
  match fuel with
  | O => v
  | S f => if strnlen v (FKO_RAND_VAL_SIZE + 1) <? FKO_RAND_VAL_SIZE
           then rand_loop f rnd (S i)
                  (ztake FKO_RAND_VAL_SIZE (v ++ ztake (FKO_RAND_VAL_SIZE - 1) (dec (rnd i))))
           else v
  end.
Definition rand_digits (rnd : nat -> Z) : bytes :=
  rand_loop (Z.to_nat FKO_RAND_VAL_SIZE) rnd 1 (ztake (FKO_RAND_VAL_SIZE - 1) (dec (rnd O))).
(** lib/fko_rand_value.c:97-160, no value given.  [seed_ok]: opening the random device
    failed, or four bytes could be read from it. *)
Definition gen_rand_value (seed_ok : bool) (rnd : nat -> Z) (c : ctx) : err * ctx :=
  if seed_ok then (FKO_SUCCESS, set_c_dirty true (set_c_rand (Some (rand_digits rnd)) c))
  else (FKO_ERROR_FILESYSTEM_OPERATION, c).

(** The places lib/fko_user.c:56-101 takes a user name from (build without _XOPEN_SOURCE). *)
Record login := mkLogin {
  l_spoof : option bytes; l_logname : option bytes; l_getlogin : option bytes; l_user : option bytes }.
Definition login_name (l : login) : bytes :=
  match l_spoof l with Some u => u | None =>
  match l_logname l with Some u => u | None =>
  match l_getlogin l with Some u => u | None =>
  match l_user l with Some u => u | None => $ "NO_USER" end end end end.
(** lib/fko_user.c:42-135.  The truncation in place of an environment string is not
    modelled. *)
Definition set_username (l : login) (spoof : option bytes) (c : ctx) : err * ctx :=
  let u := match spoof with
           | Some (x :: r) => x :: r
           | _ => login_name l
           end in
  let u := truncate_username u in
  if validate_username u then (FKO_SUCCESS, set_c_dirty true (set_c_user (Some u) c))
  else (FKO_ERROR_INVALID_DATA_USER, c).

(** lib/fko_timestamp.c:37-64; [now] is the result of [time(NULL)]. *)
Definition set_timestamp (now offset : Z) (c : ctx) : err * ctx :=
  if now + offset <? 0 then (FKO_ERROR_INVALID_DATA_TIMESTAMP_VALIDFAIL, c)
  else (FKO_SUCCESS, set_c_dirty true (set_c_time (now + offset) c)).

(** lib/fko_message.c:110-133. *)
Definition set_message_type (t : Z) (c : ctx) : err * ctx :=
  if (t <? 0) || (t >=? FKO_LAST_MSG_TYPE) then (FKO_ERROR_INVALID_DATA_MESSAGE_TYPE_VALIDFAIL, c)
  else (FKO_SUCCESS, set_c_dirty true (set_c_type t c)).

(** lib/fko_message.c:166-210. *)
Definition set_message (msg : option bytes) (c : ctx) : err * ctx :=
  match msg with
  | None => (FKO_ERROR_INVALID_DATA_MESSAGE_EMPTY, c)
  | Some m =>
      if strnlen m MAX_SPA_MESSAGE_SIZE =? 0 then (FKO_ERROR_INVALID_DATA_MESSAGE_EMPTY, c)
      else if strnlen m MAX_SPA_MESSAGE_SIZE =? MAX_SPA_MESSAGE_SIZE then (FKO_ERROR_DATA_TOO_LARGE, c)
      else if (if c_type c =? FKO_COMMAND_MSG then validate_cmd_msg m else validate_access_msg m)
           then (FKO_SUCCESS, set_c_dirty true (set_c_msg (Some m) c))
           else (FKO_ERROR_INVALID_DATA_MESSAGE_FORMAT, c)
  end.

(** lib/fko_nat_access.c:36-100. *)
Definition set_nat_access (msg : option bytes) (c : ctx) : err * ctx :=
  match msg with
  | None => (FKO_ERROR_INVALID_DATA_NAT_EMPTY, c)
  | Some m =>
      if strnlen m MAX_SPA_NAT_ACCESS_SIZE =? 0 then (FKO_ERROR_INVALID_DATA_NAT_EMPTY, c)
      else if strnlen m MAX_SPA_NAT_ACCESS_SIZE =? MAX_SPA_NAT_ACCESS_SIZE then (FKO_ERROR_DATA_TOO_LARGE, c)
      else if validate_nat_access_msg m then
        let t := c_type c in
        let t' := if c_timeout c >? 0
                  then if negb (t =? FKO_CLIENT_TIMEOUT_LOCAL_NAT_ACCESS_MSG)
                       then FKO_CLIENT_TIMEOUT_NAT_ACCESS_MSG else t
                  else if negb (t =? FKO_LOCAL_NAT_ACCESS_MSG)
                          && negb (t =? FKO_CLIENT_TIMEOUT_LOCAL_NAT_ACCESS_MSG)
                       then FKO_NAT_ACCESS_MSG else t in
        (FKO_SUCCESS, set_c_type t' (set_c_dirty true (set_c_nat (Some m) c)))
      else (FKO_ERROR_INVALID_DATA_MESSAGE_FORMAT, c)
  end.

(** lib/fko_server_auth.c:36-85. *)
Definition set_server_auth (msg : option bytes) (c : ctx) : err * ctx :=
  match msg with
  | None => (FKO_ERROR_INVALID_DATA_SRVAUTH_MISSING, c)
  | Some m =>
      if strnlen m MAX_SPA_SERVER_AUTH_SIZE =? 0 then (FKO_ERROR_INVALID_DATA_SRVAUTH_MISSING, c)
      else if strnlen m MAX_SPA_SERVER_AUTH_SIZE =? MAX_SPA_SERVER_AUTH_SIZE then (FKO_ERROR_DATA_TOO_LARGE, c)
      else (FKO_SUCCESS, set_c_dirty true (set_c_auth (Some m) c))
  end.

(** lib/fko_client_timeout.c:36-98; the argument is a C int. *)
Definition set_client_timeout (n : Z) (c : ctx) : err * ctx :=
  let timeout := i32 n in
  if timeout <? 0 then (FKO_ERROR_INVALID_DATA_CLIENT_TIMEOUT_NEGATIVE, c)
  else (FKO_SUCCESS, set_c_type (timeout_type (c_type c) timeout)
                       (set_c_dirty true (set_c_timeout timeout c))).

(** lib/fko.h:92, 120 and 146: the last members of the enumerations. *)
Definition FKO_LAST_DIGEST_TYPE : Z := 8.
Definition FKO_LAST_HMAC_MODE : Z := 8.
Definition FKO_LAST_ENCRYPTION_TYPE : Z := 3.
Definition FKO_LAST_ENC_MODE : Z := 9.
Definition FKO_ENCRYPTION_RIJNDAEL : Z := 1.
Definition FKO_ENCRYPTION_GPG : Z := 2.
Definition FKO_HMAC_UNKNOWN : Z := 0.

(** lib/fko_digest.c:38-74. *)
Definition set_digest_type (t : Z) (c : ctx) : err * ctx :=
  if (t <? 1) || (t >=? FKO_LAST_DIGEST_TYPE) then (FKO_ERROR_INVALID_DATA_ENCODE_DIGEST_VALIDFAIL, c)
  else (FKO_SUCCESS, set_c_dirty true (set_c_dtype t c)).
Definition set_raw_digest_type (t : Z) (c : ctx) : err * ctx :=
  if (t <? 1) || (t >=? FKO_LAST_DIGEST_TYPE) then (FKO_ERROR_INVALID_DATA_ENCODE_DIGEST_VALIDFAIL, c)
  else (FKO_SUCCESS, set_c_dirty true (set_c_raw_type t c)).

(** lib/fko_encryption.c:498-522. *)
Definition set_encryption_type (t : Z) (c : ctx) : err * ctx :=
  if (t <? 0) || (t >=? FKO_LAST_ENCRYPTION_TYPE) then (FKO_ERROR_INVALID_DATA_ENCRYPT_TYPE_VALIDFAIL, c)
  else (FKO_SUCCESS, set_c_dirty true (set_c_etype t c)).
(** lib/fko_encryption.c:541-565 (its flag is not among those of FKO_SPA_DATA_MODIFIED). *)
Definition set_encryption_mode (m : Z) (c : ctx) : err * ctx :=
  if (m <? 0) || (m >=? FKO_LAST_ENC_MODE) then (FKO_ERROR_INVALID_DATA_ENCRYPT_MODE_VALIDFAIL, c)
  else (FKO_SUCCESS, set_c_mode m c).
(** lib/fko_hmac.c:190-216 (likewise). *)
Definition set_hmac_type (t : Z) (c : ctx) : err * ctx :=
  if (t <? 0) || (t >=? FKO_LAST_HMAC_MODE) then (FKO_ERROR_INVALID_DATA_HMAC_TYPE_VALIDFAIL, c)
  else (FKO_SUCCESS, set_c_htype t c).

(** lib/fko_funcs.c:568-597. *)
Definition set_spa_data (msg : option bytes) (c : ctx) : err * ctx :=
  match msg with
  | None => (FKO_ERROR_INVALID_DATA_FUNCS_SET_MSGLEN_VALIDFAIL, c)
  | Some m =>
      let n := strnlen m MAX_SPA_ENCODED_MSG_SIZE in
      if is_valid_encoded_msg_len n then (FKO_SUCCESS, set_c_crypt_len n (set_c_crypt (Some m) c))
      else (FKO_ERROR_INVALID_DATA_FUNCS_SET_MSGLEN_VALIDFAIL, c)
  end.

(** ** Digests *)

(** lib/digest.h and lib/fko_digest.c:146-216: base64 length of a digest without padding
    (MD5_B64_LEN and so on). *)
Definition b64_len_of (t : Z) : Z :=
  if t =? 1 then 22 else if t =? 2 then 27 else if t =? 3 then 43 else if t =? 4 then 64
  else if t =? 5 then 86 else if t =? 6 then 43 else 86.
Definition is_b64_digest_len (n : Z) : bool :=
  (n =? 22) || (n =? 27) || (n =? 43) || (n =? 64) || (n =? 86).

(** lib/fko_digest.c:125-231, [set_digest]. *)
Definition set_digest (H : hashes) (data : bytes) (t : Z) : err + bytes :=
  if strnlen data MAX_SPA_ENCODED_MSG_SIZE =? MAX_SPA_ENCODED_MSG_SIZE
  then inl FKO_ERROR_INVALID_DATA_ENCODE_DIGEST_TOOBIG
  else match hash_of H t with
       | None => inl FKO_ERROR_INVALID_DIGEST_TYPE
       | Some h => inr (digest_b64 h data)
       end.
(** lib/fko_digest.c:234-255. *)
Definition set_spa_digest (H : hashes) (c : ctx) : err * ctx :=
  match c_enc c with
  | None => (FKO_ERROR_MISSING_ENCODED_DATA, c)
  | Some e => match set_digest H (cstr e) (c_dtype c) with
              | inl x => (x, c)
              | inr d => (FKO_SUCCESS, set_c_digest_len (b64_len_of (c_dtype c)) (set_c_digest (Some d) c))
              end
  end.
(** lib/fko_digest.c:258-279. *)
Definition set_raw_spa_digest (H : hashes) (c : ctx) : err * ctx :=
  match c_crypt c with
  | None => (FKO_ERROR_MISSING_ENCODED_DATA, c)
  | Some e => match set_digest H e (c_raw_type c) with
              | inl x => (x, c)
              | inr d => (FKO_SUCCESS, set_c_raw (Some d) c)
              end
  end.

(** ** Encoding *)

(** lib/fko_encode.c:79-235.  An over-long user name (not reachable: at most 63 characters)
    would be reported before the message type is adjusted. *)
Definition encode_spa_data (H : hashes) (c : ctx) : outcome (err * ctx) :=
  match c_user c, c_version c, c_msg c with
  | Some u, Some v, Some m =>
      if negb (validate_username u) || (strnlen v MAX_SPA_VERSION_SIZE =? 0)
         || (strnlen m MAX_SPA_MESSAGE_SIZE =? 0)
      then Ok (FKO_ERROR_INCOMPLETE_SPA_DATA, c)
      else if (c_type c =? FKO_NAT_ACCESS_MSG)
              && match c_nat c with Some n => strnlen n MAX_SPA_MESSAGE_SIZE =? 0 | None => true end
      then Ok (FKO_ERROR_INCOMPLETE_SPA_DATA, c)
      else match c_rand c with
           | None => Fault
           | Some r =>
               let sp := mkSpa r u (c_time c) v (c_type c) m (c_nat c) (c_auth c) (c_timeout c) in
               let c1 := snd (set_client_timeout (c_timeout c) c) in
               match encode_text sp with
               | None => Ok (FKO_ERROR_INVALID_DATA_ENCODE_MESSAGE_TOOBIG, c1)
               | Some t =>
                   let n := strnlen t MAX_SPA_ENCODED_MSG_SIZE in
                   let c2 := set_c_enc_len n (set_c_enc (Some t) c1) in
                   if negb (is_valid_encoded_msg_len n)
                   then Ok (FKO_ERROR_INVALID_DATA_ENCODE_MSGLEN_VALIDFAIL, c2)
                   else let '(e, c3) := set_spa_digest H c2 in
                        if ok e then Ok (FKO_SUCCESS, set_c_dirty false c3) else Ok (e, c3)
               end
           end
  | _, _, _ => Ok (FKO_ERROR_INCOMPLETE_SPA_DATA, c)
  end.

(** ** Encryption *)

(** lib/fko_encryption.c:59-170, [_rijndael_encrypt], with the random salt as an argument.
    [snprintf] returns the full length: if it does not leave room for the padding that
    [rij_encrypt] appends in place, memory behind the buffer is used. *)
Definition rijndael_encrypt (H : hashes) (key salt : bytes) (c : ctx) : outcome (err * ctx) :=
  if zlen key >? RIJNDAEL_MAX_KEYSIZE then Ok (FKO_ERROR_INVALID_KEY_LEN, c)
  else if negb (is_valid_encoded_msg_len (c_enc_len c)) then Ok (FKO_ERROR_INVALID_DATA_ENCRYPT_MSGLEN_VALIDFAIL, c)
  else if negb (is_b64_digest_len (c_digest_len c)) then Ok (FKO_ERROR_INVALID_DATA_ENCRYPT_DIGESTLEN_VALIDFAIL, c)
  else match c_enc c, c_digest c with
       | Some e, Some d =>
           let size := c_enc_len c + c_digest_len c + RIJNDAEL_BLOCKSIZE + 2 in
           let pt := cstr e ++ ":"%byte :: d in
           if zlen pt + RIJNDAEL_BLOCKSIZE >? size then Fault
           else if negb (is_valid_encoded_msg_len (zlen pt)) then Ok (FKO_ERROR_INVALID_DATA_ENCRYPT_PTLEN_VALIDFAIL, c)
           else let b := strip_b64_eq (b64_encode (rij_encrypt H (c_mode c) key salt pt)) in
                let n := strnlen b MAX_SPA_ENCODED_MSG_SIZE in
                let c' := set_c_crypt_len n (set_c_crypt (Some b) c) in
                if negb (is_valid_encoded_msg_len n) then Ok (FKO_ERROR_INVALID_DATA_ENCRYPT_RESULT_MSGLEN_VALIDFAIL, c')
                else Ok (if zlen pt + 32 >? MAX_SPA_ENCODED_MSG_SIZE then FKO_ERROR_ZERO_OUT_DATA else FKO_SUCCESS, c')
       | _, _ => Fault
       end.

(** lib/fko_encryption.c:587-635. *)
Definition encrypt_spa_data (H : hashes) (key : option bytes) (salt : bytes) (c : ctx) : outcome (err * ctx) :=
  match (if match c_enc c with None => true | Some _ => c_dirty c end
         then encode_spa_data H c else Ok (FKO_SUCCESS, c)) with
  | Fault => Fault
  | Ok (e, c1) =>
      if negb (ok e) then Ok (e, c1)
      else if negb (is_valid_encoded_msg_len (c_enc_len c1)) then Ok (FKO_ERROR_MISSING_ENCODED_DATA, c1)
      else if c_etype c1 =? FKO_ENCRYPTION_RIJNDAEL then
             match key with
             | None => Ok (FKO_ERROR_INVALID_KEY_LEN, c1)
             | Some k => rijndael_encrypt H k salt c1
             end
      else if c_etype c1 =? FKO_ENCRYPTION_GPG then Ok (FKO_ERROR_UNSUPPORTED_FEATURE, c1)
      else Ok (FKO_ERROR_INVALID_ENCRYPTION_TYPE, c1)
  end.

(** ** HMAC *)

(** The [encrypted_msg_len] bytes at [encrypted_msg]: the text, its NUL, and nothing more
    that is initialized. *)
Definition crypt_bytes (c : ctx) : option bytes :=
  match c_crypt c with
  | None => if c_crypt_len c =? 0 then Some [] else None
  | Some t => if c_crypt_len c <=? zlen t + 1 then Some (ztake (c_crypt_len c) (t ++ [x00])) else None
  end.

(** lib/fko_hmac.c:236-352. *)
Definition set_spa_hmac (H : hashes) (key : option bytes) (c : ctx) : outcome (err * ctx) :=
  match key with
  | None => Ok (FKO_ERROR_INVALID_DATA, c)
  | Some k =>
      if zlen k >? MAX_DIGEST_BLOCK_LEN then Ok (FKO_ERROR_INVALID_HMAC_KEY_LEN, c)
      else match hash_of H (c_htype c) with
           | None => Ok (FKO_ERROR_UNKNOWN, c)
           | Some _ =>
               match crypt_bytes c with
               | None => Fault
               | Some m =>
                   match hmac_of H (c_htype c) k m with
                   | None => Ok (FKO_ERROR_UNKNOWN, c)
                   | Some d =>
                       let t := strip_b64_eq (b64_encode (ztake (digest_len_of (c_htype c)) d)) in
                       Ok (if is_b64_digest_len (zlen t) then FKO_SUCCESS
                           else FKO_ERROR_INVALID_DATA_HMAC_LEN_VALIDFAIL, set_c_hmac (Some t) c)
                   end
               end
           end
  end.

(** lib/fko_funcs.c:466-516. *)
Definition spa_data_final (H : hashes) (key hmac_key : option bytes) (salt : bytes) (c : ctx) : outcome (err * ctx) :=
  match encrypt_spa_data H key salt c with
  | Fault => Fault
  | Ok (e, c1) =>
      if ok e && negb (c_htype c1 =? FKO_HMAC_UNKNOWN) then
        match hmac_key with
        | None => Ok (FKO_ERROR_INVALID_KEY_LEN, c1)
        | Some _ =>
            match set_spa_hmac H hmac_key c1 with
            | Fault => Fault
            | Ok (e2, c2) =>
                if ok e2 then
                  match c_crypt c2, c_hmac c2 with
                  | Some t, Some h =>
                      let n := c_crypt_len c2 + 1 + zlen h + 1 in
                      Ok (e2, set_c_crypt_len n (set_c_crypt (Some (ztake (n - 1) (t ++ h))) c2))
                  | _, _ => Fault
                  end
                else Ok (e2, c2)
            end
        end
      else Ok (e, c1)
  end.

(** lib/fko_funcs.c:521-563; lib/fko.h B64_RIJNDAEL_SALT, B64_GPG_PREFIX. *)
Definition B64_RIJNDAEL_SALT : bytes := $ "U2FsdGVkX1".
Definition B64_GPG_PREFIX : bytes := $ "hQ".
Definition get_spa_data (c : ctx) : err * option bytes :=
  match c_crypt c with
  | None => (FKO_ERROR_MISSING_ENCODED_DATA, None)
  | Some t =>
      if negb (is_valid_encoded_msg_len (strnlen t MAX_SPA_ENCODED_MSG_SIZE)) then (FKO_ERROR_MISSING_ENCODED_DATA, None)
      else (FKO_SUCCESS, Some (if c_etype c =? FKO_ENCRYPTION_RIJNDAEL then zdrop (zlen B64_RIJNDAEL_SALT) t
                               else if c_etype c =? FKO_ENCRYPTION_GPG then zdrop (zlen B64_GPG_PREFIX) t else t))
  end.

(** ** Receiving *)

(** [is_base64] on [len] bytes of a C string: the NUL at its end is not in the alphabet. *)
Definition text_is_base64 (t : bytes) (len : Z) : bool := (len <=? zlen t) && is_base64 t len.

(** lib/cipher_funcs.c:332-375, [add_salted_str], and 380-418, [add_gpg_prefix]: the text
    with the prefix, and whether it was added. *)
Definition add_prefix (prefix : bytes) (c : ctx) : outcome (err * option bytes) :=
  match c_crypt c with
  | None => Fault
  | Some t =>
      if negb (text_is_base64 t (c_crypt_len c)) then Ok (FKO_ERROR_INVALID_DATA_ENCODE_NOTBASE64, None)
      else match constant_runtime_cmp t prefix (zlen prefix) with
           | None => Fault
           | Some 0 => Ok (FKO_SUCCESS, None)
           | Some _ => Ok (FKO_SUCCESS, Some (prefix ++ ztake (c_crypt_len c) t))
           end
  end.
Definition add_salted_str (c : ctx) : outcome (err * ctx) :=
  match add_prefix B64_RIJNDAEL_SALT c with
  | Fault => Fault
  | Ok (e, None) => Ok (e, c)
  | Ok (e, Some t) => Ok (e, set_c_salted true (set_c_crypt_len (c_crypt_len c + zlen B64_RIJNDAEL_SALT) (set_c_crypt (Some t) c)))
  end.
Definition add_gpg_prefix (c : ctx) : outcome (err * ctx) :=
  match add_prefix B64_GPG_PREFIX c with
  | Fault => Fault
  | Ok (e, None) => Ok (e, c)
  | Ok (e, Some t) => Ok (e, set_c_gpg true (set_c_crypt_len (c_crypt_len c + zlen B64_GPG_PREFIX) (set_c_crypt (Some t) c)))
  end.

(** lib/fko_hmac.c:36-168, [fko_verify_hmac]. *)
Definition verify_hmac (H : hashes) (key : option bytes) (c : ctx) : outcome (err * ctx) :=
  match key with
  | None => Ok (FKO_ERROR_INVALID_DATA, c)
  | Some k =>
      if negb (is_valid_encoded_msg_len (c_crypt_len c)) then Ok (FKO_ERROR_INVALID_DATA_HMAC_MSGLEN_VALIDFAIL, c)
      else if zlen k >? MAX_DIGEST_BLOCK_LEN then Ok (FKO_ERROR_INVALID_HMAC_KEY_LEN, c)
      else if (c_htype c <? 1) || (c_htype c >? 7) then Ok (FKO_ERROR_UNSUPPORTED_HMAC_MODE, c)
      else
        let n := b64_len_of (c_htype c) in
        if c_crypt_len c - n <? MIN_SPA_ENCODED_MSG_SIZE then Ok (FKO_ERROR_INVALID_DATA_HMAC_ENCMSGLEN_VALIDFAIL, c)
        else match c_crypt c with
             | None => Fault
             | Some t =>
                 let from_data := ztake n (zdrop (c_crypt_len c - n) t) in
                 let c1 := set_c_crypt_len (c_crypt_len c - n) (set_c_crypt (Some (ztake (c_crypt_len c - n) t)) c) in
                 match (if c_mode c1 =? FKO_ENC_MODE_ASYMMETRIC
                        then if c_gpg c1 then Ok (FKO_SUCCESS, c1) else add_gpg_prefix c1
                        else if c_salted c1 then Ok (FKO_SUCCESS, c1) else add_salted_str c1) with
                 | Fault => Fault
                 | Ok (e, c2) =>
                     if negb (ok e) then Ok (e, c2)
                     else match set_spa_hmac H key c2 with
                          | Fault => Fault
                          | Ok (e3, c3) =>
                              if negb (ok e3) then Ok (e3, c3)
                              else match constant_runtime_cmp (from_data ++ [x00]) (match c_hmac c3 with Some h => h ++ [x00] | None => [] end) n with
                                   | None => Fault
                                   | Some 0 => Ok (FKO_SUCCESS, c3)
                                   | Some _ => Ok (FKO_ERROR_INVALID_DATA_HMAC_COMPAREFAIL, c3)
                                   end
                          end
                 end
             end
  end.

(** lib/fko_decode.c:612-622 on a context: the parsers store what they find as they go.
    Where the message has no NAT, authentication or timeout field the context keeps what it
    had.  Simplification: a field that fails its check is not stored. *)
Definition parse_into (s : bytes) (c : ctx) : err * ctx :=
  match parse_rand_val s with None => (FKO_ERROR_INVALID_DATA_DECODE, c) | Some (v, s) =>
  let c := set_c_rand (Some v) c in
  match parse_username s with None => (FKO_ERROR_INVALID_DATA_DECODE, c) | Some (v, s) =>
  let c := set_c_user (Some v) c in
  match parse_timestamp s with None => (FKO_ERROR_INVALID_DATA_DECODE, c) | Some (v, s) =>
  let c := set_c_time v c in
  match parse_version s with None => (FKO_ERROR_INVALID_DATA_DECODE, c) | Some (v, s) =>
  let c := set_c_version (Some v) c in
  match parse_msg_type s with None => (FKO_ERROR_INVALID_DATA_DECODE, c) | Some (ty, s) =>
  let c := set_c_type ty c in
  match parse_msg ty s with None => (FKO_ERROR_INVALID_DATA_DECODE, c) | Some (v, s) =>
  let c := set_c_msg (Some v) c in
  match parse_nat_msg ty s with None => (FKO_ERROR_INVALID_DATA_DECODE, c) | Some (v, s) =>
  let c := match v with Some _ => set_c_nat v c | None => c end in
  match parse_server_auth ty s with None => (FKO_ERROR_INVALID_DATA_DECODE, c) | Some (v, s) =>
  let c := match v with Some _ => set_c_auth v c | None => c end in
  match parse_client_timeout ty s with None => (FKO_ERROR_INVALID_DATA_DECODE, c) | Some v =>
  (FKO_SUCCESS, if is_timeout_type ty then set_c_timeout v c else c)
  end end end end end end end end end.

(** lib/fko_decode.c:530-634 on a live context; see [M_codec.decode_spa] for the split. *)
Definition decode_spa_data (H : hashes) (c : ctx) : outcome (err * ctx) :=
  if negb (is_valid_encoded_msg_len (c_enc_len c)) then Ok (FKO_ERROR_INVALID_DATA_DECODE_MSGLEN_VALIDFAIL, c)
  else match c_enc c with
  | None => Fault
  | Some buf =>
      let s := cstr buf in
      if negb (forallb isprint s) || (num_fields s <? 6) then Ok (FKO_ERROR_INVALID_DATA_DECODE, c)
      else
        let pos := last_field s in
        let dg := zdrop pos s in
        let t_size := strnlen dg 87 in
        match digest_type_of_len t_size with
        | None => Ok (FKO_ERROR_INVALID_DATA_DECODE, c)
        | Some dt0 =>
            let c := set_c_digest_len t_size (set_c_dtype dt0 c) in
            if c_enc_len c - t_size <? 0 then Ok (FKO_ERROR_INVALID_DATA_DECODE, c)
            else
              let buf' := ztake (pos - 1) buf ++ repeat x00 (Z.to_nat t_size) ++ zdrop (pos - 1 + t_size) buf in
              let data := ztake (c_enc_len c - (t_size + 1)) buf' in
              let c := set_c_enc_len (c_enc_len c - (t_size + 1)) (set_c_enc (Some data) (set_c_digest (Some dg) c)) in
              match verify_digest H dt0 dg data t_size with
              | None => Ok (FKO_ERROR_DIGEST_VERIFICATION_FAILED, c)
              | Some dt => Ok (parse_into (cstr buf') (set_c_dtype dt c))
              end
        end
  end.

(** lib/fko_encryption.c:174-284, [_rijndael_decrypt]. *)
Definition rijndael_decrypt (H : hashes) (key : bytes) (c : ctx) : outcome (err * ctx) :=
  if zlen key >? RIJNDAEL_MAX_KEYSIZE then Ok (FKO_ERROR_INVALID_KEY_LEN, c)
  else match (if c_salted c then Ok (FKO_SUCCESS, c) else add_salted_str c) with
  | Fault => Fault
  | Ok (e, c1) =>
      if negb (ok e) then Ok (e, c1)
      else match c_crypt c1 with
      | None => Fault
      | Some t =>
          match b64_decode t with
          | None => Ok (FKO_ERROR_INVALID_DATA_ENCRYPT_CIPHERLEN_DECODEFAIL, c1)
          | Some cipher =>
              if negb (zlen cipher mod RIJNDAEL_BLOCKSIZE =? 0) then Ok (FKO_ERROR_INVALID_DATA_ENCRYPT_CIPHERLEN_VALIDFAIL, c1)
              else match rij_decrypt H (c_mode c1) key cipher with
              | Fault => Fault
              | Ok pt =>
                  let c2 := set_c_enc (Some pt) c1 in
                  if (zlen pt <? zlen cipher - 32) || (zlen pt <=? 0) then Ok (FKO_ERROR_DECRYPTION_SIZE, c2)
                  else if negb (is_valid_encoded_msg_len (zlen pt)) then Ok (FKO_ERROR_INVALID_DATA_DECODE_MSGLEN_VALIDFAIL, c2)
                  else let c3 := set_c_enc_len (zlen pt) c2 in
                       if forallb isdigit (ztake FKO_RAND_VAL_SIZE pt) && beq (nth 16 pt x00) ":"%byte
                       then decode_spa_data H c3
                       else Ok (FKO_ERROR_DECRYPTION_FAILURE, c3)
              end
          end
      end
  end.

(** lib/fko_encryption.c:679-703. *)
Definition MIN_GNUPG_MSG_SIZE : Z := 400.
Definition encryption_type (data : option bytes) : Z :=
  match data with
  | None => -1
  | Some t => let n := strnlen t MAX_SPA_ENCODED_MSG_SIZE in
              if negb (is_valid_encoded_msg_len n) then 0
              else if n >=? MIN_GNUPG_MSG_SIZE then FKO_ENCRYPTION_GPG
              else if (n <? MIN_GNUPG_MSG_SIZE) && (n >=? MIN_SPA_ENCODED_MSG_SIZE) then FKO_ENCRYPTION_RIJNDAEL
              else 0
  end.
(** lib/fko_encryption.c:639-675.  A NULL key is not checked here but only used with a
    length, so that [None] counts as the empty key. *)
Definition decrypt_spa_data (H : hashes) (key : bytes) (c : ctx) : outcome (err * ctx) :=
  let t := encryption_type (c_crypt c) in
  if (t =? FKO_ENCRYPTION_GPG) && (c_mode c =? FKO_ENC_MODE_ASYMMETRIC)
  then Ok (FKO_ERROR_UNSUPPORTED_FEATURE, set_c_etype FKO_ENCRYPTION_GPG c)
  else if t =? FKO_ENCRYPTION_RIJNDAEL then rijndael_decrypt H key (set_c_etype FKO_ENCRYPTION_RIJNDAEL c)
  else Ok (FKO_ERROR_INVALID_DATA_ENCRYPT_TYPE_UNKNOWN, c).

(** ** Creation and destruction *)

(** calloc'ed context. *)
Definition empty_ctx : ctx :=
  mkCtx None None 0 0 None None None 0 0 0 0 0 None None 0 None 0 None 0 None 0 None false false false.

(** lib/fko.h and lib/fko_common.h: defaults. *)
Definition FKO_DEFAULT_DIGEST : Z := FKO_DIGEST_SHA256.
Definition FKO_DEFAULT_MSG_TYPE : Z := FKO_ACCESS_MSG.
Definition FKO_PROTOCOL_VERSION : bytes := $ "3.0.0".

(** lib/fko_funcs.c:39-155. *)
Definition fko_new (seed_ok : bool) (rnd : nat -> Z) (l : login) (now : Z) : err * handle :=
  let c := set_c_version (Some FKO_PROTOCOL_VERSION) empty_ctx in
  let '(e, c) := gen_rand_value seed_ok rnd c in if negb (ok e) then (e, Null) else
  let '(e, c) := set_username l None c in if negb (ok e) then (e, Null) else
  let '(e, c) := set_timestamp now 0 c in if negb (ok e) then (e, Null) else
  let '(e, c) := set_digest_type FKO_DEFAULT_DIGEST c in if negb (ok e) then (e, Null) else
  let '(e, c) := set_message_type FKO_DEFAULT_MSG_TYPE c in if negb (ok e) then (e, Null) else
  let '(e, c) := set_encryption_type FKO_ENCRYPTION_RIJNDAEL c in if negb (ok e) then (e, Null) else
  let '(e, c) := set_encryption_mode FKO_ENC_MODE_CBC c in if negb (ok e) then (e, Null) else
  (FKO_SUCCESS, Live c).

(** lib/fko_funcs.c:162-271.  [hmac_key = Some []] stands for a key of length 0 and behaves
    like no key (line 233). *)
Definition fko_new_with_data (H : hashes) (msg dec_key : option bytes) (mode : Z)
  (hmac_key : option bytes) (hmac_type : Z) : outcome (err * handle) :=
  match msg with
  | None => Ok (FKO_ERROR_INVALID_DATA_FUNCS_NEW_ENCMSG_MISSING, Null)
  | Some m =>
      let n := strnlen m MAX_SPA_ENCODED_MSG_SIZE in
      if negb (is_valid_encoded_msg_len n) then Ok (FKO_ERROR_INVALID_DATA_FUNCS_NEW_MSGLEN_VALIDFAIL, Null)
      else
        let c := set_c_crypt_len n (set_c_crypt (Some m) empty_ctx) in
        let '(e, c) := set_encryption_mode mode c in
        if negb (ok e) then Ok (e, Null) else
        let '(e, c) := set_hmac_type hmac_type c in
        if negb (ok e) then Ok (e, Null) else
        match (match hmac_key with
               | Some (x :: r) => verify_hmac H (Some (x :: r)) c
               | _ => Ok (FKO_SUCCESS, c)
               end) with
        | Fault => Fault
        | Ok (e, c) =>
            if negb (ok e) then Ok (e, Null) else
            match dec_key with
            | None => Ok (FKO_SUCCESS, Live c)
            | Some k => match decrypt_spa_data H k c with
                        | Fault => Fault
                        | Ok (e, c) => if ok e then Ok (FKO_SUCCESS, Live c) else Ok (e, Null)
                        end
            end
        end
  end.

(** lib/fko_funcs.c:276-366.  The caller's pointer keeps its value. *)
Definition fko_destroy (h : handle) : outcome (err * handle) :=
  match h with
  | Null => Ok (FKO_SUCCESS, Null)
  | Freed => Fault
  | Live _ => Ok (FKO_SUCCESS, Freed)
  end.

(** ** Key generation: lib/fko_funcs.c:372-418.  [kr] and [hr] are the random bytes read.
    [None]: one of the two length errors. *)
Definition fko_key_gen (key_len hmac_key_len hmac_type : Z) (rnd : Z -> bytes) (hrnd : Z -> bytes) : option (bytes * bytes) :=
  let klen := if key_len =? 0 then RIJNDAEL_MAX_KEYSIZE else key_len in
  let hmac_klen :=
    if hmac_key_len =? 0 then
      if (hmac_type =? 0) || (hmac_type =? 3) then 64
      else if hmac_type =? 1 then 16
      else if hmac_type =? 2 then 20
      else if hmac_type =? 4 then 128
      else if hmac_type =? 5 then 128
      else hmac_key_len
    else hmac_key_len in
  if (klen <? 1) || (klen >? RIJNDAEL_MAX_KEYSIZE) then None
  else if (hmac_klen <? 1) || (hmac_klen >? 128) then None
  else Some (b64_encode (rnd klen), b64_encode (hrnd hmac_klen)).

(** ** The public functions on handles *)

(** One call of the interface, with the answers of the environment it needs. *)
Inductive call :=
| CSetRand (v : bytes) | CGenRand (seed_ok : bool) (rnd : nat -> Z)
| CSetUser (l : login) (spoof : option bytes) | CSetTime (now offset : Z)
| CSetType (t : Z) | CSetMsg (m : option bytes) | CSetNat (m : option bytes) | CSetAuth (m : option bytes)
| CSetTimeout (n : Z) | CSetDigestType (t : Z) | CSetRawDigestType (t : Z)
| CSetEncType (t : Z) | CSetMode (m : Z) | CSetHmacType (t : Z)
| CSpaDigest | CRawDigest
| CEncode | CEncrypt (key : option bytes) (salt : bytes) | CSetHmac (key : option bytes)
| CFinal (key hmac_key : option bytes) (salt : bytes)
| CSetData (m : option bytes) | CVerifyHmac (key : option bytes) | CDecrypt (key : bytes).

Definition on_live (H : hashes) (k : call) (c : ctx) : outcome (err * ctx) :=
  match k with
  | CSetRand v => Ok (set_rand_value v c)
  | CGenRand s r => Ok (gen_rand_value s r c)
  | CSetUser l u => Ok (set_username l u c)
  | CSetTime n o => Ok (set_timestamp n o c)
  | CSetType t => Ok (set_message_type t c)
  | CSetMsg m => Ok (set_message m c)
  | CSetNat m => Ok (set_nat_access m c)
  | CSetAuth m => Ok (set_server_auth m c)
  | CSetTimeout n => Ok (set_client_timeout n c)
  | CSetDigestType t => Ok (set_digest_type t c)
  | CSetRawDigestType t => Ok (set_raw_digest_type t c)
  | CSetEncType t => Ok (set_encryption_type t c)
  | CSetMode m => Ok (set_encryption_mode m c)
  | CSetHmacType t => Ok (set_hmac_type t c)
  | CSpaDigest => Ok (set_spa_digest H c)
  | CRawDigest => Ok (set_raw_spa_digest H c)
  | CEncode => encode_spa_data H c
  | CEncrypt key salt => encrypt_spa_data H key salt c
  | CSetHmac key => set_spa_hmac H key c
  | CFinal key hk salt => spa_data_final H key hk salt c
  | CSetData m => Ok (set_spa_data m c)
  | CVerifyHmac key => verify_hmac H key c
  | CDecrypt key => decrypt_spa_data H key c
  end.
Definition run_call (H : hashes) (k : call) (h : handle) : outcome (err * handle) := api h (on_live H k).

(** lib/fko_decode.c:530-549: the only function without the check; it reads through the
    pointer at once. *)
Definition fko_decode_spa_data (H : hashes) (h : handle) : outcome (err * handle) :=
  match h with Null => Fault | _ => api h (decode_spa_data H) end.

(** lib/fko_funcs.c:521-563. *)
Definition fko_get_spa_data (h : handle) : outcome (err * option bytes) :=
  match h with
  | Null => Ok (FKO_ERROR_CTX_NOT_INITIALIZED, None)
  | Freed => Fault
  | Live c => Ok (get_spa_data c)
  end.
(** The remaining getters copy a field out: lib/fko_rand_value.c:164, fko_user.c:139,
    fko_timestamp.c:68, fko_message.c:137 and 214, fko_nat_access.c:104, fko_server_auth.c:89,
    fko_client_timeout.c:102, fko_digest.c:78, 105, 281, fko_encryption.c:526, 569,
    fko_hmac.c:172, 220, fko_encode.c:239, fko_funcs.c:436. *)
Definition fko_get_rand_value h := getter h c_rand.
Definition fko_get_username h := getter h c_user.
Definition fko_get_timestamp h := getter h c_time.
Definition fko_get_spa_message_type h := getter h c_type.
Definition fko_get_spa_message h := getter h c_msg.
Definition fko_get_spa_nat_access h := getter h c_nat.
Definition fko_get_spa_server_auth h := getter h c_auth.
Definition fko_get_spa_client_timeout h := getter h c_timeout.
Definition fko_get_spa_digest_type h := getter h c_dtype.
Definition fko_get_raw_spa_digest_type h := getter h c_raw_type.
Definition fko_get_spa_digest h := getter h c_digest.
Definition fko_get_raw_spa_digest h := getter h c_raw.
Definition fko_get_spa_encryption_type h := getter h c_etype.
Definition fko_get_spa_encryption_mode h := getter h c_mode.
Definition fko_get_spa_hmac_type h := getter h c_htype.
Definition fko_get_spa_hmac h := getter h c_hmac.
Definition fko_get_encoded_data h := getter h c_enc.
Definition fko_get_version h := getter h c_version.
