(** Words for the statements about GnuPG: histories of calls on a context with the answers
    they got, and what follows from them without looking at the context. *)
From Verif Require Import Bytes M_base64 M_util M_message M_codec M_cipher M_ctx M_access M_incoming M_gpg.
From Coq Require Import Init.Byte List ZArith Bool.
Import ListNotations.
Open Scope Z_scope.

(** The calls so far, each with what gpgme answered meanwhile and with what the caller got;
    the most recent one first. *)
Definition past : Type := list (world * call * answer).

(** [x] is a context after the calls [p], starting from the context [x0]. *)
Inductive history (H : hashes) (x0 : gx) : past -> gx -> Prop :=
| H_new : history H x0 [] x0
| H_call p x w k a x' : history H x0 p x -> step H w k x = Done (a, x') -> history H x0 ((w, k, a) :: p) x'.

(** The recipient named last: a refused call for another type of encryption counts for
    nothing, any other refused call leaves the context without a recipient. *)
Definition named (e : gerr) (w : world) (n : bytes) (before : option (world * bytes)) : option (world * bytes) :=
  match e with
  | Lib FKO_SUCCESS => Some (w, n)
  | Gpg WRONG_ENCRYPTION_TYPE => before
  | _ => None
  end.
Fixpoint recipient (p : past) : option (world * bytes) :=
  match p with
  | [] => None
  | (w, k, (e, _)) :: p =>
      match k with SetRecipient n => named e w n (recipient p) | _ => recipient p end
  end.
Fixpoint signer (p : past) : option (world * bytes) :=
  match p with
  | [] => None
  | (w, k, (e, _)) :: p =>
      match k with SetSigner n => named e w n (signer p) | _ => signer p end
  end.

(** The program and the directory last set. *)
Fixpoint settings (p : past) : engine :=
  match p with
  | [] => mkEngine GPG_EXE None
  | (_, k, (e, _)) :: p =>
      let s := settings p in
      match k, e with
      | SetExe f, Lib FKO_SUCCESS => mkEngine f (en_home s)
      | SetHome d, Lib FKO_SUCCESS => mkEngine (en_exe s) (Some d)
      | _, _ => s
      end
  end.
(** The settings at a moment of the past (or now): those that a key was looked up with. *)
Definition once (p : past) (e : engine) : Prop := exists p1 p2, p = p1 ++ p2 /\ e = settings p2 /\
  recipient p2 = None /\ signer p2 = None.

(** [k] is the first key that the listing of the name gives, and no second key follows. *)
Definition found (w : world) (e : engine) (n : bytes) (secret : bool) (k : key) : Prop :=
  exists l, w_list w e n secret = Some (Some k :: l) /\ match l with Some _ :: _ => False | _ => True end.

(** Whether signatures are to be verified, and errors to be ignored, by the last calls. *)
Fixpoint verifying (p : past) : bool :=
  match p with
  | [] => true
  | (_, SetVerify v, _) :: _ => negb (v mod 256 =? 0)
  | _ :: p => verifying p
  end.
Fixpoint ignoring (p : past) : bool :=
  match p with
  | [] => false
  | (_, SetIgnore v, _) :: _ => negb (v mod 256 =? 0)
  | _ :: p => ignoring p
  end.

(** A signature that gpgme found to be right, of a key that is fully trusted. *)
Definition trusted (s : sig) : Prop := sg_status s = 0 /\ 3 <= sg_valid s.

(** No listing fails to start. *)
Definition lists (w : world) : Prop := forall e n s, w_list w e n s <> None.
(** No listing breaks off. *)
Definition whole (w : world) : Prop := forall e n s l, w_list w e n s = Some l -> ~ In None l.

(** The calls that ask gpgme for something. *)
Definition asks (c : ctx) (k : call) : Prop :=
  match k with
  | SetRecipient _ | SetSigner _ => True
  | Encrypt _ _ => c_etype c = FKO_ENCRYPTION_GPG
  | Decrypt _ _ => encryption_type (c_crypt c) = FKO_ENCRYPTION_GPG /\ c_mode c = FKO_ENC_MODE_ASYMMETRIC
  | _ => False
  end.
(** The answers after which the handle is gone: everything but trouble with finding a key. *)
Definition gave_up (g : gcode) : Prop :=
  In g [PLAINTEXT_DATA_OBJ; SET_PROTOCOL; CIPHER_DATA_OBJ; BAD_PASSPHRASE; ENCRYPT_SIGN; ADD_SIGNER;
        DECRYPT_FAILED; DECRYPT_UNSUPPORTED_ALGORITHM; NO_SIGNATURE; BAD_SIGNATURE].

(** Two worlds that differ in the signatures of the texts at most. *)
Definition same_but_signatures (w w' : world) : Prop :=
  w' = mkW (w_engine w) (w_new w) (w_data w) (w_data2 w) (w_proto w) (w_signer w) (w_list w) (w_encrypt w) (w_sign w)
           (w_asks w) (w_open w') (w_isreg w) (w_isdir w) /\
  forall e pw t, match w_open w e pw t, w_open w' e pw t with
                 | Some (a, b, _), Some (a', b', _) => a = a' /\ b = b'
                 | None, None => True
                 | _, _ => False
                 end.

(** ** GnuPG as the model of the daemon (M_incoming) sees it *)
Definition reported (s : sig) : gpg_sig := mkSig (sg_print s) (sg_status s =? 0) (sg_valid s).
(** What a stanza with the settings [g] gets from gpgme when a text is opened: nothing if
    anything on the way fails. *)
Definition engine_of (g : gpg_conf) : engine :=
  mkEngine (match gc_exe g with Some p => p | None => GPG_EXE end) (gc_home g).
Definition as_gpg (w : world) (g : gpg_conf) : gpg :=
  mkGpg (fun _ => match gc_exe g with Some p => w_isreg w p | None => true end &&
                  match gc_home g with Some p => w_isdir w p | None => true end)
        (fun _ t => if w_engine w && w_new w && w_data w && w_data2 w then
                      match w_open w (engine_of g) (gc_pw g) t with
                      | Some (pt, false, l) => Some (pt, map reported l)
                      | _ => None
                      end
                    else None).
