(** Specification: configurations and packets for which the daemon stays within its memory. *)
From Verif Require Import Bytes M_base64 S_base64 S_text S_codec S_cipher S_ctx S_access S_replay S_cycle M_util M_message M_codec M_cipher M_ctx M_access
  M_replay M_cycle M_incoming S_incoming.
From Coq Require Import Init.Byte List ZArith Bool.
Import ListNotations.
Open Scope Z_scope.

(** A command template that leaves room for its variables, 19 characters each, in the 256
    bytes that a command has. *)
Definition dollars (t : bytes) : Z := zlen (filter (fun c => beq c "$"%byte) t).
Definition roomy (t : bytes) : Prop := zlen t + 18 * dollars t <= 256.

(** A stanza that cannot bring the daemon down: its command templates have room, and a stanza
    that runs commands with sudo and names a group names a sudo group. *)
Definition stanza_safe (a : stanza) : Prop :=
  (forall cc, a_cycle a = Some cc -> roomy (cc_open cc) /\ (cc_do_close cc = true -> roomy (cc_close cc))) /\
  (a_cmd a = true -> a_sudo a = true -> a_cmd_group a <> None -> a_sudo_group a <> None).
Definition config_safe (acc : list stanza) : Prop := config_ok acc /\ Forall stanza_safe acc.

(** GnuPG reports signatures with a fingerprint of at least eight characters. *)
Definition fingerprints_ok (G : gpg) : Prop :=
  forall a cipher pt sigs s, g_open G a cipher = Some (pt, sigs) -> In s sigs -> exists f, sg_fpr s = Some f /\ 8 <= zlen f.

(** The data does not end in the HMAC that the stanza demands. *)
Definition unauthenticated (H : hashes) (a : stanza) (data : bytes) : Prop :=
  exists hk, a_hmac_key a = Some hk /\ hk <> [] /\
    forall mode t, mode = a_mode a \/ mode = 7 -> ~ auth_text H mode (Some hk) (a_hmac_type a) data t.

(** The packets considered: they have no padding character, or they are not authenticated in
    a stanza with an HMAC key; their X-Forwarded-For header, if it is used, is not the end of
    the packet and has at most 15 characters. *)
Record packet_safe (H : hashes) (cf : conf) (acc : list stanza) (p : packet) : Prop := {
  ps_ok : packet_ok p;
  ps_data : forall data, carries cf p data -> ~ In "="%byte data \/ Forall (fun a => unauthenticated H a data) acc;
  ps_header : forall v b, forward_header cf p v b -> b <> [] /\ zlen v <= 15 }.

(** What has happened so far: packets of any kind arrived; the daemon was started again, with
    a usable access file. *)
Definition past_ok (x : happening) : Prop :=
  match x with
  | Arrives _ p => packet_ok p
  | Restarts acc => config_safe acc
  | Dies d i now k acc => event_ok (Killed d i now k) /\ config_safe acc
  end.
