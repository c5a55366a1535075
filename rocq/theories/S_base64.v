(** Specification of base64 (RFC 4648), independent of lib/base64.c. *)
From Verif Require Import Bytes.
From Coq Require Import Init.Byte List ZArith Bool.
Import ListNotations.
Open Scope Z_scope.

(** RFC 4648 table 1: the character standing for a 6-bit value. *)
Definition sextet_char (n : Z) : byte :=
  if n <? 26 then zb (65 + n)            (* A-Z *)
  else if n <? 52 then zb (97 + (n - 26)) (* a-z *)
  else if n <? 62 then zb (48 + (n - 52)) (* 0-9 *)
  else if n =? 62 then "+"%byte else "/"%byte.

(** RFC 4648 section 4: 24-bit groups, with '=' padding for a short last group. *)
Fixpoint rfc4648 (l : bytes) : bytes :=
  match l with
  | [] => []
  | [a] =>
      [ sextet_char (bv a / 4); sextet_char (bv a mod 4 * 16); "="%byte; "="%byte ]
  | [a; b] =>
      [ sextet_char (bv a / 4);
        sextet_char (bv a mod 4 * 16 + bv b / 16);
        sextet_char (bv b mod 16 * 4); "="%byte ]
  | a :: b :: c :: r =>
      sextet_char (bv a / 4) ::
      sextet_char (bv a mod 4 * 16 + bv b / 16) ::
      sextet_char (bv b mod 16 * 4 + bv c / 64) ::
      sextet_char (bv c mod 64) :: rfc4648 r
  end.

(** The 64 alphabet characters. *)
Definition is_b64_char (c : byte) : Prop :=
  (65 <= bv c <= 90) \/ (97 <= bv c <= 122) \/ (48 <= bv c <= 57) \/ c = "+"%byte \/ c = "/"%byte.

(** The part of a text that a decoder looks at: up to the first '=' or NUL. *)
Inductive b64_body : bytes -> bytes -> Prop :=
| body_end : b64_body [] []
| body_eq s : b64_body ("="%byte :: s) []
| body_nul s : b64_body (x00 :: s) []
| body_char c s t : c <> "="%byte -> c <> x00 -> b64_body s t -> b64_body (c :: s) (c :: t).
