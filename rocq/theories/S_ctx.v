(** Specification of the context interface, in terms of what callers can observe. *)
From Verif Require Import Bytes M_util M_codec M_cipher M_ctx S_base64 S_text S_codec S_cipher.
From Coq Require Import Init.Byte List ZArith Bool.
Import ListNotations.
Open Scope Z_scope.

(** The observable attributes, one per getter. *)
Inductive attr :=
| ARand | AUser | ATime | AType | AMsg | ANat | AAuth | ATimeout | ADigestType | ARawDigestType
| ADigest | ARawDigest | AEncType | AMode | AHmacType | AHmac | AEncoded | AVersion.
Inductive value := VText (s : option bytes) | VNum (n : Z).
Definition fetch {A} (f : A -> value) (r : outcome (err * option A)) : outcome (err * option value) :=
  match r with Ok (e, o) => Ok (e, option_map f o) | Fault => Fault end.
Definition get (a : attr) (h : handle) : outcome (err * option value) :=
  match a with
  | ARand => fetch VText (fko_get_rand_value h)
  | AUser => fetch VText (fko_get_username h)
  | ATime => fetch VNum (fko_get_timestamp h)
  | AType => fetch VNum (fko_get_spa_message_type h)
  | AMsg => fetch VText (fko_get_spa_message h)
  | ANat => fetch VText (fko_get_spa_nat_access h)
  | AAuth => fetch VText (fko_get_spa_server_auth h)
  | ATimeout => fetch VNum (fko_get_spa_client_timeout h)
  | ADigestType => fetch VNum (fko_get_spa_digest_type h)
  | ARawDigestType => fetch VNum (fko_get_raw_spa_digest_type h)
  | ADigest => fetch VText (fko_get_spa_digest h)
  | ARawDigest => fetch VText (fko_get_raw_spa_digest h)
  | AEncType => fetch VNum (fko_get_spa_encryption_type h)
  | AMode => fetch VNum (fko_get_spa_encryption_mode h)
  | AHmacType => fetch VNum (fko_get_spa_hmac_type h)
  | AHmac => fetch VText (fko_get_spa_hmac h)
  | AEncoded => fetch VText (fko_get_encoded_data h)
  | AVersion => fetch VText (fko_get_version h)
  end.
Definition reads (h : handle) (a : attr) (v : value) : Prop := get a h = Ok (FKO_SUCCESS, Some v).

(** The message a handle stands for: what its getters return. *)
Definition shows (h : handle) (m : spa) : Prop :=
  reads h ARand (VText (Some (s_rand m))) /\ reads h AUser (VText (Some (s_user m))) /\
  reads h ATime (VNum (s_time m)) /\ reads h AVersion (VText (Some (s_version m))) /\
  reads h AType (VNum (s_type m)) /\ reads h AMsg (VText (Some (s_msg m))) /\
  reads h ANat (VText (s_nat m)) /\ reads h AAuth (VText (s_auth m)) /\
  reads h ATimeout (VNum (s_timeout m)).

(** What a successful setter call must make the getters return. *)
Inductive sets : call -> handle -> attr -> value -> Prop :=
| st_rand_v : forall v h, sets (CSetRand v) h ARand (VText (Some v))
| st_user_v : forall l x u h, sets (CSetUser l (Some (x :: u))) h AUser (VText (Some (ztake 63 (x :: u))))
| st_time_v : forall n o h, sets (CSetTime n o) h ATime (VNum (n + o))
| st_type_v : forall t h, sets (CSetType t) h AType (VNum t)
| st_msg_v : forall m h, sets (CSetMsg (Some m)) h AMsg (VText (Some m))
| st_nat_v : forall m h, sets (CSetNat (Some m)) h ANat (VText (Some m))
| st_auth_v : forall m h, sets (CSetAuth (Some m)) h AAuth (VText (Some m))
| st_timeout_v : forall n h, 0 <= n < 2147483648 -> sets (CSetTimeout n) h ATimeout (VNum n)
| st_dtype_v : forall t h, sets (CSetDigestType t) h ADigestType (VNum t)
| st_rtype_v : forall t h, sets (CSetRawDigestType t) h ARawDigestType (VNum t)
| st_etype_v : forall t h, sets (CSetEncType t) h AEncType (VNum t)
| st_mode_v : forall t h, sets (CSetMode t) h AMode (VNum t)
| st_htype_v : forall t h, sets (CSetHmacType t) h AHmacType (VNum t).

(** The attributes a call may change at all. *)
Definition touches (k : call) : list attr :=
  match k with
  | CSetRand _ | CGenRand _ _ => [ARand]
  | CSetUser _ _ => [AUser]
  | CSetTime _ _ => [ATime]
  | CSetType _ => [AType]
  | CSetMsg _ => [AMsg]
  | CSetNat _ => [ANat; AType]
  | CSetAuth _ => [AAuth]
  | CSetTimeout _ => [ATimeout; AType]
  | CSetDigestType _ => [ADigestType]
  | CSetRawDigestType _ => [ARawDigestType]
  | CSetEncType _ => [AEncType]
  | CSetMode _ => [AMode]
  | CSetHmacType _ => [AHmacType]
  | CSpaDigest => [ADigest]
  | CRawDigest => [ARawDigest]
  | CEncode | CEncrypt _ _ => [AEncoded; ADigest; AType]
  | CSetHmac _ => [AHmac]
  | CFinal _ _ _ => [AEncoded; ADigest; AType; AHmac]
  | CSetData _ => []
  | CVerifyHmac _ => [AHmac]
  | CDecrypt _ => [ARand; AUser; ATime; AType; AMsg; ANat; AAuth; ATimeout; ADigestType; ADigest;
                   AEncType; AEncoded; AVersion]
  end.
Definition is_setter (k : call) : bool :=
  match k with
  | CSpaDigest | CRawDigest | CEncode | CEncrypt _ _ | CSetHmac _ | CFinal _ _ _
  | CVerifyHmac _ | CDecrypt _ => false
  | _ => true
  end.

(** Calls of a program that sends: everything but the functions for received data.  The
    random value is a C string. *)
Definition sender_call (k : call) : Prop :=
  match k with
  | CSetData _ | CVerifyHmac _ | CDecrypt _ => False
  | CSetRand v => no_nul v
  | _ => True
  end.

(** A handle obtained from [fko_new] and then used in any way by a sender; the calls may
    succeed or report an error. *)
Inductive sender_history (H : hashes) : list call -> handle -> Prop :=
| sh_new : forall seed_ok rnd l now h,
    fko_new seed_ok rnd l now = (FKO_SUCCESS, h) -> sender_history H [] h
| sh_call : forall ks h k e h', sender_history H ks h -> sender_call k ->
    run_call H k h = Ok (e, h') -> sender_history H (ks ++ [k]) h'.

(** A handle obtained from either constructor and then used in any way. *)
Inductive history (H : hashes) : handle -> Prop :=
| hi_new : forall seed_ok rnd l now h,
    fko_new seed_ok rnd l now = (FKO_SUCCESS, h) -> history H h
| hi_data : forall msg dk mode hk ht h,
    fko_new_with_data H msg dk mode hk ht = Ok (FKO_SUCCESS, h) -> history H h
| hi_call : forall h k e h', history H h -> run_call H k h = Ok (e, h') -> history H h'
| hi_decode : forall h e h', history H h -> fko_decode_spa_data H h = Ok (e, h') -> history H h'.

(** The text whose HMAC travels with a packet, and the packet text itself. *)
Definition prefix_of (mode : Z) : bytes := if mode =? 7 then $ "hQ" else $ "U2FsdGVkX1".
Definition with_prefix (mode : Z) (body : bytes) : bytes :=
  if is_prefix (prefix_of mode) body then body else prefix_of mode ++ body.
