(** Model of what libfko does with GnuPG (lib/gpgme_funcs.c, and lib/fko_encryption.c,
    fko_funcs.c in a build with gpgme): the handle of the gpgme library that a context has,
    the keys it looks up, encryption with a signature, and decryption.

    gpgme itself is not modelled: what it answers during a call is the record [world], which
    may be different for every call.  Simplifications, throughout: memory allocation does not
    fail, keys are identified by their fingerprint and the counting of references to them is
    left out, the error value kept for fko_gpg_errstr is left out, and
    gpgme_set_engine_info succeeds (its result is not looked at).  As its documentation
    says, gpgme answers a call without a handle (NULL) with an error, and releasing NULL does
    nothing. *)
From Verif Require Import Bytes M_base64 M_util M_message M_codec M_cipher M_ctx.
From Coq Require Import Init.Byte List ZArith Bool.
Import ListNotations.
Open Scope Z_scope.

(** What can go wrong inside a call: an access outside of a buffer as in M_ctx, the use of a
    handle that was released, or the length of a NULL passphrase. *)
Inductive trouble := Memory | Stale | NoPass.
Inductive res (A : Type) := Done (a : A) | Bad (t : trouble).
Arguments Done {A} _.
Arguments Bad {A} _.

(** lib/fko.h:262-295 *)
Inductive gcode :=
| NO_OPENPGP | CONTEXT | PLAINTEXT_DATA_OBJ | SET_PROTOCOL | CIPHER_DATA_OBJ | BAD_PASSPHRASE
| ENCRYPT_SIGN | CONTEXT_SIGNER_KEY | CONTEXT_RECIPIENT_KEY | SIGNER_KEYLIST_START | SIGNER_KEY_NOT_FOUND
| SIGNER_KEY_AMBIGUOUS | ADD_SIGNER | RECIPIENT_KEYLIST_START | RECIPIENT_KEY_NOT_FOUND | RECIPIENT_KEY_AMBIGUOUS
| DECRYPT_FAILED | DECRYPT_UNSUPPORTED_ALGORITHM | BAD_GPG_EXE | BAD_HOME_DIR | SIGNATURE_VERIFY_DISABLED
| NO_SIGNATURE | BAD_SIGNATURE | WRONG_ENCRYPTION_TYPE | MISSING_GPG_KEY_DATA.
(** A code of M_ctx, or one of those above. *)
Inductive gerr := Lib (e : err) | Gpg (g : gcode).
Definition success : gerr := Lib FKO_SUCCESS.

(** The program and the key ring of a gpgme handle, lib/gpgme_funcs.c:64-68. *)
Record engine := mkEngine { en_exe : bytes; en_home : option bytes }.
(** lib/fko_common.h, config.h: GPG_EXE *)
Definition GPG_EXE : bytes := $ "/usr/bin/gpg".
Definition key : Type := bytes.
(** gpgme_signature_t: the fields that are used; 0 is GPG_ERR_NO_ERROR. *)
Record sig := mkGsig { sg_summary : Z; sg_status : Z; sg_valid : Z; sg_print : option bytes }.

(** What gpgme and the file system answer during one call of the library:
    - [w_engine], [w_new]: gpgme_engine_check_version and gpgme_new succeed;
    - [w_data], [w_data2], [w_proto], [w_signer]: so do the creation of the two data objects,
      gpgme_set_protocol and gpgme_signers_add;
    - [w_list]: the listing of the keys with a name, of those with a secret part if [true].
      [None]: it fails to start.  A key, or [None] for an error on the way;
    - [w_encrypt], [w_sign]: encryption for a recipient, with the signature of a signer.
      [inl true]: cancelled;
    - [w_asks]: gpgme asks for the passphrase to open the text;
    - [w_open]: the plain text, the flag unsupported_algorithm, the signatures;
    - [w_isreg], [w_isdir]: the path is a file, a directory. *)
Record world := mkW {
  w_engine : bool; w_new : bool; w_data : bool; w_data2 : bool; w_proto : bool; w_signer : bool;
  w_list : engine -> bytes -> bool -> option (list (option key));
  w_encrypt : engine -> option key -> bytes -> bool + bytes;
  w_sign : engine -> option key -> option key -> bytes -> bytes -> bool + bytes;
  w_asks : engine -> bytes -> bool;
  w_open : engine -> bytes -> bytes -> option (bytes * bool * list sig);
  w_isreg : bytes -> bool; w_isdir : bytes -> bool }.

(** The pointer [gpg_ctx]: NULL, a handle with its settings, one that was released. *)
Inductive ghandle := GNull | GLive (e : engine) | GReleased.

(** lib/fko_context.h:116-133 beside the rest of the context.  Of the list of signatures
    only the first is ever looked at. *)
Record gx := mkGx {
  x_c : ctx;
  x_exe : option bytes; x_home : option bytes;
  x_rcpt : option bytes; x_sgn : option bytes;
  x_have : bool; x_ptr : ghandle;
  x_rkey : option key; x_skey : option key;
  x_verify : bool; x_ignore : bool;
  x_sig : option sig }.
Definition put_c v x := mkGx v (x_exe x) (x_home x) (x_rcpt x) (x_sgn x) (x_have x) (x_ptr x) (x_rkey x) (x_skey x) (x_verify x) (x_ignore x) (x_sig x).
Definition put_exe v x := mkGx (x_c x) v (x_home x) (x_rcpt x) (x_sgn x) (x_have x) (x_ptr x) (x_rkey x) (x_skey x) (x_verify x) (x_ignore x) (x_sig x).
Definition put_home v x := mkGx (x_c x) (x_exe x) v (x_rcpt x) (x_sgn x) (x_have x) (x_ptr x) (x_rkey x) (x_skey x) (x_verify x) (x_ignore x) (x_sig x).
Definition put_rcpt v x := mkGx (x_c x) (x_exe x) (x_home x) v (x_sgn x) (x_have x) (x_ptr x) (x_rkey x) (x_skey x) (x_verify x) (x_ignore x) (x_sig x).
Definition put_sgn v x := mkGx (x_c x) (x_exe x) (x_home x) (x_rcpt x) v (x_have x) (x_ptr x) (x_rkey x) (x_skey x) (x_verify x) (x_ignore x) (x_sig x).
Definition put_have v x := mkGx (x_c x) (x_exe x) (x_home x) (x_rcpt x) (x_sgn x) v (x_ptr x) (x_rkey x) (x_skey x) (x_verify x) (x_ignore x) (x_sig x).
Definition put_ptr v x := mkGx (x_c x) (x_exe x) (x_home x) (x_rcpt x) (x_sgn x) (x_have x) v (x_rkey x) (x_skey x) (x_verify x) (x_ignore x) (x_sig x).
Definition put_rkey v x := mkGx (x_c x) (x_exe x) (x_home x) (x_rcpt x) (x_sgn x) (x_have x) (x_ptr x) v (x_skey x) (x_verify x) (x_ignore x) (x_sig x).
Definition put_skey v x := mkGx (x_c x) (x_exe x) (x_home x) (x_rcpt x) (x_sgn x) (x_have x) (x_ptr x) (x_rkey x) v (x_verify x) (x_ignore x) (x_sig x).
Definition put_verify v x := mkGx (x_c x) (x_exe x) (x_home x) (x_rcpt x) (x_sgn x) (x_have x) (x_ptr x) (x_rkey x) (x_skey x) v (x_ignore x) (x_sig x).
Definition put_ignore v x := mkGx (x_c x) (x_exe x) (x_home x) (x_rcpt x) (x_sgn x) (x_have x) (x_ptr x) (x_rkey x) (x_skey x) (x_verify x) v (x_sig x).
Definition put_sig v x := mkGx (x_c x) (x_exe x) (x_home x) (x_rcpt x) (x_sgn x) (x_have x) (x_ptr x) (x_rkey x) (x_skey x) (x_verify x) (x_ignore x) v.

(** gpgme_release followed by [fko_ctx->gpg_ctx = NULL], as after every failure in
    lib/gpgme_funcs.c:274-533. *)
Definition drop (x : gx) : res gx :=
  match x_ptr x with
  | GReleased => Bad Stale
  | _ => Done (put_ptr GNull x)
  end.
(** A failure of that kind with its code. *)
Definition drop_with (g : gcode) (x : gx) : res (gerr * gx) :=
  match drop x with Done x => Done (Gpg g, x) | Bad t => Bad t end.

(** lib/gpgme_funcs.c:36-80 *)
Definition init_gpgme (w : world) (x : gx) : gerr * gx :=
  if x_have x then (success, x)
  else if negb (w_engine w) then (Gpg NO_OPENPGP, x)
  else if negb (w_new w) then (Gpg CONTEXT, x)
  else (success, put_have true (put_ptr (GLive (mkEngine
          (match x_exe x with Some p => p | None => GPG_EXE end) (x_home x))) x)).

(** lib/gpgme_funcs.c:179-266.  The released handle stays in the context when the listing
    fails to start.  A name is never NULL here. *)
Definition get_gpg_key (w : world) (signer : bool) (x : gx) : res (gerr * option key * gx) :=
  let '(e, x) := init_gpgme w x in
  match e with
  | Lib FKO_SUCCESS =>
      let failed := Gpg (if signer then SIGNER_KEYLIST_START else RECIPIENT_KEYLIST_START) in
      match x_ptr x with
      | GReleased => Bad Stale
      | GNull => Done (failed, None, x)
      | GLive en =>
          match w_list w en (match (if signer then x_sgn x else x_rcpt x) with Some n => n | None => [] end) signer with
          | None => Done (failed, None, put_ptr GReleased x)
          | Some (Some k :: Some _ :: _) =>
              Done (Gpg (if signer then SIGNER_KEY_AMBIGUOUS else RECIPIENT_KEY_AMBIGUOUS), None, x)
          | Some (Some k :: _) => Done (success, Some k, x)
          | Some _ => Done (Gpg (if signer then SIGNER_KEY_NOT_FOUND else RECIPIENT_KEY_NOT_FOUND), None, x)
          end
      end
  | _ => Done (Gpg (if signer then CONTEXT_SIGNER_KEY else CONTEXT_RECIPIENT_KEY), None, x)
  end.

(** lib/fko_encryption.c:707-746 *)
Definition set_gpg_recipient (w : world) (n : bytes) (x : gx) : res (gerr * gx) :=
  if negb (c_etype (x_c x) =? FKO_ENCRYPTION_GPG) then Done (Gpg WRONG_ENCRYPTION_TYPE, x)
  else match get_gpg_key w false (put_rcpt (Some n) x) with
       | Bad t => Bad t
       | Done (Lib FKO_SUCCESS, k, x) => Done (success, put_c (set_c_dirty true (x_c x)) (put_rkey k x))
       | Done (e, _, x) => Done (e, put_rcpt None x)
       end.
(** lib/fko_encryption.c:824-863 *)
Definition set_gpg_signer (w : world) (n : bytes) (x : gx) : res (gerr * gx) :=
  if negb (c_etype (x_c x) =? FKO_ENCRYPTION_GPG) then Done (Gpg WRONG_ENCRYPTION_TYPE, x)
  else match get_gpg_key w true (put_sgn (Some n) x) with
       | Bad t => Bad t
       | Done (Lib FKO_SUCCESS, k, x) => Done (success, put_c (set_c_dirty true (x_c x)) (put_skey k x))
       | Done (e, _, x) => Done (e, put_sgn None x)
       end.

(** lib/fko_encryption.c:751-784 and 887-919 *)
Definition set_gpg_exe (w : world) (p : bytes) (x : gx) : gerr * gx :=
  if w_isreg w p then (success, put_exe (Some p) x) else (Gpg BAD_GPG_EXE, x).
Definition set_gpg_home_dir (w : world) (p : bytes) (x : gx) : gerr * gx :=
  if w_isdir w p then (success, put_home (Some p) x) else (Gpg BAD_HOME_DIR, x).
(** lib/fko_encryption.c:938-953 and 972-987; the argument is an unsigned char. *)
Definition set_gpg_signature_verify (v : Z) (x : gx) : gx := put_verify (negb (v mod 256 =? 0)) x.
Definition set_gpg_ignore_verify_error (v : Z) (x : gx) : gx := put_ignore (negb (v mod 256 =? 0)) x.

(** lib/gpgme_funcs.c:270-411.  A passphrase is there (see [gpg_encrypt]). *)
Definition gpgme_encrypt (w : world) (pw plain : bytes) (x : gx) : res (gerr * option bytes * gx) :=
  let fail g x := match drop_with g x with Done (e, x) => Done (e, None, x) | Bad t => Bad t end in
  let '(e, x) := init_gpgme w x in
  match e with
  | Lib FKO_SUCCESS =>
      if negb (w_data w) then fail PLAINTEXT_DATA_OBJ x
      else match x_ptr x with
      | GReleased => Bad Stale
      | GNull => fail SET_PROTOCOL x
      | GLive en =>
          if negb (w_proto w) then fail SET_PROTOCOL x
          else if negb (w_data2 w) then fail CIPHER_DATA_OBJ x
          else match (match x_sgn x with
                      | None => Some (w_encrypt w en (x_rkey x) plain)
                      | Some _ => if w_signer w then Some (w_sign w en (x_rkey x) (x_skey x) pw plain) else None
                      end) with
               | None => fail ADD_SIGNER x
               | Some (inl true) => fail BAD_PASSPHRASE x
               | Some (inl false) => fail ENCRYPT_SIGN x
               | Some (inr out) => Done (success, Some out, x)
               end
      end
  | _ => Done (e, None, x)
  end.

(** lib/fko_encryption.c:291-421.  [snprintf] returns the length of the whole text: where
    it does not fit, gpgme is given more bytes than the buffer has.  The codes for a length
    that is not valid, or a buffer too long to be wiped, are merged. *)
Definition gpg_encrypt (w : world) (pw : option bytes) (x : gx) : res (gerr * gx) :=
  let c := x_c x in
  if negb (is_valid_encoded_msg_len (c_enc_len c)) then Done (Lib FKO_ERROR_INVALID_DATA_ENCRYPT_MSGLEN_VALIDFAIL, x)
  else if negb (is_b64_digest_len (c_digest_len c)) then Done (Lib FKO_ERROR_INVALID_DATA_ENCRYPT_DIGESTLEN_VALIDFAIL, x)
  else match x_rcpt x with
  | None => Done (Gpg MISSING_GPG_KEY_DATA, x)
  | Some _ =>
      match c_enc c, c_digest c with
      | Some e, Some d =>
          let plain := cstr e ++ ":"%byte :: d in
          if zlen plain + 1 >? c_enc_len c + c_digest_len c + 2 then Bad Memory
          else if negb (is_valid_encoded_msg_len (zlen plain)) then Done (Lib FKO_ERROR_INVALID_DATA_ENCRYPT_PTLEN_VALIDFAIL, x)
          else match gpgme_encrypt w (match pw with Some p => p | None => [] end) plain x with
               | Bad t => Bad t
               | Done (Lib FKO_SUCCESS, Some out, x) =>
                   let b := strip_b64_eq (b64_encode out) in
                   let n := strnlen b MAX_SPA_ENCODED_MSG_SIZE in
                   let x := put_c (set_c_crypt_len n (set_c_crypt (Some b) (x_c x))) x in
                   if negb (is_valid_encoded_msg_len n) then Done (Lib FKO_ERROR_INVALID_DATA_ENCRYPT_RESULT_MSGLEN_VALIDFAIL, x)
                   else Done (success, x)
               | Done (e, _, x) => Done (e, x)
               end
      | _, _ => Bad Memory
      end
  end.

(** A function of M_ctx in a context with GnuPG. *)
Definition lift (r : outcome (err * ctx)) (x : gx) : res (gerr * gx) :=
  match r with
  | Fault => Bad Memory
  | Ok (e, c) => Done (Lib e, put_c c x)
  end.

(** lib/fko_encryption.c:587-635 in a build with gpgme *)
Definition encrypt_data (H : hashes) (w : world) (pw : option bytes) (salt : bytes) (x : gx) : res (gerr * gx) :=
  let c := x_c x in
  match (if match c_enc c with None => true | Some _ => c_dirty c end
         then encode_spa_data H c else Ok (FKO_SUCCESS, c)) with
  | Fault => Bad Memory
  | Ok (e, c1) =>
      let x := put_c c1 x in
      if negb (ok e) then Done (Lib e, x)
      else if negb (is_valid_encoded_msg_len (c_enc_len c1)) then Done (Lib FKO_ERROR_MISSING_ENCODED_DATA, x)
      else if c_etype c1 =? FKO_ENCRYPTION_RIJNDAEL then
             match pw with
             | None => Done (Lib FKO_ERROR_INVALID_KEY_LEN, x)
             | Some k => lift (rijndael_encrypt H k salt c1) x
             end
      else if c_etype c1 =? FKO_ENCRYPTION_GPG then gpg_encrypt w pw x
      else Done (Lib FKO_ERROR_INVALID_ENCRYPTION_TYPE, x)
  end.

(** lib/gpgme_funcs.c:109-176 *)
Definition process_sigs (l : list sig) (x : gx) : gerr * gx :=
  match l with
  | [] => (Gpg NO_SIGNATURE, x)
  | s :: _ =>
      let x := put_sig (Some s) x in
      if x_ignore x then (success, x)
      else if negb (sg_status s =? 0) || (sg_valid s <? 3) then (Gpg BAD_SIGNATURE, x)
      else (success, x)
  end.

(** lib/gpgme_funcs.c:415-541, with my_passphrase_cb (84-105) for a NULL passphrase *)
Definition gpgme_decrypt (w : world) (pw : option bytes) (cipher : bytes) (x : gx) : res (gerr * option bytes * gx) :=
  let fail g x := match drop_with g x with Done (e, x) => Done (e, None, x) | Bad t => Bad t end in
  let '(e, x) := init_gpgme w x in
  match e with
  | Lib FKO_SUCCESS =>
      if negb (w_data w) then fail PLAINTEXT_DATA_OBJ x
      else if negb (w_data2 w) then fail CIPHER_DATA_OBJ x
      else match x_ptr x with
      | GReleased => Bad Stale
      | GNull => fail DECRYPT_FAILED x
      | GLive en =>
          if w_asks w en cipher && match pw with None => true | Some _ => false end then Bad NoPass
          else match w_open w en (match pw with Some p => p | None => [] end) cipher with
          | None => fail DECRYPT_FAILED x
          | Some (pt, unsupported, sigs) =>
              if unsupported then fail DECRYPT_UNSUPPORTED_ALGORITHM x
              else if x_verify x then
                let '(e, x) := process_sigs sigs x in
                match e with
                | Lib FKO_SUCCESS => Done (success, Some pt, x)
                | _ => match drop x with Done x => Done (e, None, x) | Bad t => Bad t end
                end
              else Done (success, Some pt, x)
          end
      end
  | _ => Done (e, None, x)
  end.

(** lib/fko_encryption.c:426-493 *)
Definition gpg_decrypt (H : hashes) (w : world) (pw : option bytes) (x : gx) : res (gerr * gx) :=
  match (if c_gpg (x_c x) then Ok (FKO_SUCCESS, x_c x) else add_gpg_prefix (x_c x)) with
  | Fault => Bad Memory
  | Ok (_, c) =>
      let x := put_c c x in
      match c_crypt c with
      | None => Bad Memory
      | Some t =>
          match b64_decode t with
          | None => Done (Lib FKO_ERROR_INVALID_DATA, x)
          | Some cipher =>
              match gpgme_decrypt w pw cipher x with
              | Bad t => Bad t
              | Done (Lib FKO_SUCCESS, Some pt, x) =>
                  let n := strnlen (cstr pt) MAX_SPA_ENCODED_MSG_SIZE in
                  let c := set_c_enc (Some pt) (x_c x) in
                  if negb (is_valid_encoded_msg_len n) then Done (Lib FKO_ERROR_INVALID_DATA, put_c c x)
                  else lift (decode_spa_data H (set_c_enc_len n c)) x
              | Done (e, _, x) => Done (e, x)
              end
          end
      end
  end.

(** lib/fko_encryption.c:639-675 in a build with gpgme; the length counts for Rijndael only *)
Definition decrypt_data (H : hashes) (w : world) (pw : option bytes) (len : Z) (x : gx) : res (gerr * gx) :=
  let c := x_c x in
  let t := encryption_type (c_crypt c) in
  if len <? 0 then Done (Lib FKO_ERROR_INVALID_KEY_LEN, x)
  else if (t =? FKO_ENCRYPTION_GPG) && (c_mode c =? FKO_ENC_MODE_ASYMMETRIC)
  then gpg_decrypt H w pw (put_c (set_c_etype FKO_ENCRYPTION_GPG c) x)
  else if t =? FKO_ENCRYPTION_RIJNDAEL
       then lift (rijndael_decrypt H (ztake len (match pw with Some k => k | None => [] end)) (set_c_etype FKO_ENCRYPTION_RIJNDAEL c)) x
       else Done (Lib FKO_ERROR_INVALID_DATA_ENCRYPT_TYPE_UNKNOWN, x).

(** The conditions at the start of the functions in lib/fko_encryption.c:1007-1205 *)
Definition with_sig (x : gx) (f : sig -> res (gerr * option bytes)) : res (gerr * option bytes) :=
  if negb (c_etype (x_c x) =? FKO_ENCRYPTION_GPG) then Done (Gpg WRONG_ENCRYPTION_TYPE, None)
  else if negb (x_verify x) then Done (Gpg SIGNATURE_VERIFY_DISABLED, None)
  else match x_sig x with
       | None => Done (Gpg NO_SIGNATURE, None)
       | Some s => f s
       end.
(** lib/fko_encryption.c:1007-1036 and 1039-1068: the fingerprint, and its last 8 digits;
    in front of the text if it is shorter than that. *)
Definition get_gpg_signature_fpr (x : gx) : res (gerr * option bytes) :=
  with_sig x (fun s => Done (success, sg_print s)).
Definition get_gpg_signature_id (x : gx) : res (gerr * option bytes) :=
  with_sig x (fun s => match sg_print s with
                       | None => Bad Memory
                       | Some f => if zlen f <? 8 then Bad Memory else Done (success, Some (zdrop (zlen f - 8) f))
                       end).

(** A call of the interface.  [Other c]: any call of a function that has nothing to do with
    GnuPG; it may leave the rest of the context in any state. *)
Inductive call :=
| SetExe (p : bytes) | SetHome (p : bytes) | SetRecipient (n : bytes) | SetSigner (n : bytes)
| SetVerify (v : Z) | SetIgnore (v : Z)
| Encrypt (pw : option bytes) (salt : bytes) | Decrypt (pw : option bytes) (len : Z)
| GetFpr | GetId
| Other (c : ctx).
Definition answer : Type := gerr * option bytes.
Definition plainly (r : res (gerr * gx)) : res (answer * gx) :=
  match r with Done (e, x) => Done ((e, None), x) | Bad t => Bad t end.
Definition reading (x : gx) (r : res (gerr * option bytes)) : res (answer * gx) :=
  match r with Done a => Done (a, x) | Bad t => Bad t end.

Definition step (H : hashes) (w : world) (k : call) (x : gx) : res (answer * gx) :=
  match k with
  | SetExe p => plainly (Done (set_gpg_exe w p x))
  | SetHome p => plainly (Done (set_gpg_home_dir w p x))
  | SetRecipient n => plainly (set_gpg_recipient w n x)
  | SetSigner n => plainly (set_gpg_signer w n x)
  | SetVerify v => plainly (Done (success, set_gpg_signature_verify v x))
  | SetIgnore v => plainly (Done (success, set_gpg_ignore_verify_error v x))
  | Encrypt pw salt => plainly (encrypt_data H w pw salt x)
  | Decrypt pw len => plainly (decrypt_data H w pw len x)
  | GetFpr => reading x (get_gpg_signature_fpr x)
  | GetId => reading x (get_gpg_signature_id x)
  | Other c => plainly (Done (success, put_c c x))
  end.

(** lib/fko_funcs.c:276-361: what fko_destroy does with the handle. *)
Definition destroy (x : gx) : res unit :=
  match x_ptr x with GReleased => Bad Stale | _ => Done tt end.

(** calloc'ed context *)
Definition blank (c : ctx) : gx := mkGx c None None None None false GNull None None false false None.
(** lib/fko_funcs.c:39-155: the context of fko_new, with [c] for the rest of it. *)
Definition fresh (c : ctx) : gx := put_verify true (blank c).
(** lib/fko_funcs.c:162-271 in a build with gpgme: as in M_ctx, and the signatures are
    verified from the end of the function on.  No context: [None]. *)
Definition new_with_data (H : hashes) (w : world) (msg : bytes) (dec_key : option bytes) (mode : Z)
  (hmac_key : option bytes) (hmac_type : Z) : res (gerr * option gx) :=
  match fko_new_with_data H (Some msg) None mode hmac_key hmac_type with
  | Fault => Bad Memory
  | Ok (FKO_SUCCESS, Live c) =>
      match dec_key with
      | None => Done (success, Some (fresh c))
      | Some k =>
          match decrypt_data H w (Some k) (zlen k) (blank c) with
          | Bad t => Bad t
          | Done (Lib FKO_SUCCESS, x) => Done (success, Some (put_verify true x))
          | Done (e, x) => match destroy x with Done _ => Done (e, None) | Bad t => Bad t end
          end
      end
  | Ok (e, _) => Done (Lib e, None)
  end.

(** The settings for GnuPG of a stanza of access.conf. *)
Record gpg_conf := mkGc { gc_exe : option bytes; gc_home : option bytes; gc_id : option bytes; gc_pw : bytes;
                          gc_require : bool; gc_ignore : bool }.
(** server/incoming_spa.c:604-689 [handle_gpg_enc] from line 632 on, on the context made for
    the packet: the daemon ignores whether the recipient was set. *)
Definition handle_gpg_enc (H : hashes) (w : world) (g : gpg_conf) (x : gx) : res (gerr * gx) :=
  let '(e, x) := match gc_exe g with Some p => set_gpg_exe w p x | None => (success, x) end in
  match e with
  | Lib FKO_SUCCESS =>
      let '(e, x) := match gc_home g with Some p => set_gpg_home_dir w p x | None => (success, x) end in
      match e with
      | Lib FKO_SUCCESS =>
          match (match gc_id g with Some n => set_gpg_recipient w n x | None => Done (success, x) end) with
          | Bad t => Bad t
          | Done (_, x) =>
              let x := if gc_require g
                       then set_gpg_ignore_verify_error (if gc_ignore g then 1 else 0) (set_gpg_signature_verify 1 x)
                       else set_gpg_ignore_verify_error 1 (set_gpg_signature_verify 0 x) in
              decrypt_data H w (Some (gc_pw g)) 0 x
          end
      | _ => Done (e, x)
      end
  | _ => Done (e, x)
  end.
