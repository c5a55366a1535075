(** Small textual specifications: numbers, dotted quads, access requests, host names.
    Written without reference to the model. *)
From Verif Require Import Bytes.
From Coq Require Import Init.Byte List ZArith Bool.
Import ListNotations.
Open Scope Z_scope.

Definition digit (c : byte) : Prop := 48 <= bv c <= 57.
Definition all_digits (s : bytes) : Prop := Forall digit s.

(** Number denoted by a digit string in a base, most significant digit first. *)
Definition radix (base : Z) (s : bytes) : Z :=
  fold_left (fun acc c => acc * base + (bv c - 48)) s 0.
Definition decimal (s : bytes) : Z := radix 10 s.

(** A number written the way C literals are: a leading 0 means octal. *)
Definition c_number (s : bytes) (v : Z) : Prop :=
  s <> [] /\ all_digits s /\
  ( (hd x00 s <> "0"%byte /\ v = decimal s)
    \/ (hd x00 s = "0"%byte /\ Forall (fun c => bv c < 56) s /\ v = radix 8 s) ).

(** Four dot separated numbers, each at most 255. *)
Definition ipv4_text (s : bytes) (a b c d : Z) : Prop :=
  exists A B C D,
    s = A ++ ["."%byte] ++ B ++ ["."%byte] ++ C ++ ["."%byte] ++ D /\
    c_number A a /\ c_number B b /\ c_number C c /\ c_number D d /\
    a <= 255 /\ b <= 255 /\ c <= 255 /\ d <= 255.

(** A canonical decimal octet: no superfluous leading zero. *)
Definition canonical_octet (s : bytes) (v : Z) : Prop :=
  s <> [] /\ all_digits s /\ v = decimal s /\ v <= 255 /\ (hd x00 s = "0"%byte -> s = ["0"%byte]).

Fixpoint join (sep : bytes) (l : list bytes) : bytes :=
  match l with
  | [] => []
  | [x] => x
  | x :: r => x ++ sep ++ join sep r
  end.

(** tcp/PORT or udp/PORT with a port in 1..65535 written with at most five digits. *)
Definition proto_port (it : bytes) : Prop :=
  exists p ds, (p = $ "tcp" \/ p = $ "udp") /\ it = p ++ ["/"%byte] ++ ds /\
    1 <= zlen ds <= 5 /\ all_digits ds /\ 1 <= decimal ds <= 65535.

(** IP,proto/port[,proto/port]... *)
Definition access_request (msg : bytes) : Prop :=
  exists ip items a b c d,
    msg = join [","%byte] (ip :: items) /\ items <> [] /\
    ipv4_text ip a b c d /\ zlen ip <= 15 /\ Forall proto_port items.

(** IP,something *)
Definition command_request (msg : bytes) : Prop :=
  exists ip cmd a b c d,
    msg = ip ++ [","%byte] ++ cmd /\ ipv4_text ip a b c d /\ zlen ip <= 15 /\ cmd <> [].

(** HOST,PORT *)
Definition nat_request (msg : bytes) : Prop :=
  exists host port,
    msg = host ++ [","%byte] ++ port /\ zlen host <= 70 /\
    (forall c, In c host -> ~ In c ([" "%byte; "/"%byte; "?"%byte; x22; x27; x5c; ","%byte])) /\
    1 <= zlen port <= 5 /\ all_digits port /\ 1 <= decimal port <= 65535.

Definition letter_or_digit (c : byte) : Prop :=
  (65 <= bv c <= 90) \/ (97 <= bv c <= 122) \/ digit c.

(** A host name label: 1..63 letters, digits, hyphens; not starting or ending with '-'. *)
Definition label (l : bytes) : Prop :=
  1 <= zlen l <= 63 /\
  Forall (fun c => letter_or_digit c \/ c = "-"%byte) l /\
  letter_or_digit (hd x00 l) /\ letter_or_digit (last l x00).

(** Dot separated labels, optionally with a final dot. *)
Definition hostname (s : bytes) : Prop :=
  exists ls, ls <> [] /\ Forall label ls /\
    (s = join ["."%byte] ls \/ s = join ["."%byte] ls ++ ["."%byte]).

(** White space as C's isspace in the "C" locale. *)
Definition blank (c : byte) : Prop := bv c = 32 \/ 9 <= bv c <= 13.

(** [words s ws]: [ws] are the maximal runs of non-blank characters of [s], in order. *)
Inductive words : bytes -> list bytes -> Prop :=
| words_none s : Forall blank s -> words s []
| words_more sp w t ws :
    Forall blank sp -> w <> [] -> Forall (fun c => ~ blank c) w ->
    (t = [] \/ blank (hd x00 t)) -> words t ws -> words (sp ++ w ++ t) (w :: ws).

(** Characters that may not occur in a user name: double quote, slash, backslash, [ ] : ; | = , + * ? < > *)
Definition username_banned : bytes :=
  [x22; "/"%byte; x5c; "["%byte; "]"%byte; ":"%byte; ";"%byte; "|"%byte; "="%byte; ","%byte;
   "+"%byte; "*"%byte; "?"%byte; "<"%byte; ">"%byte].
Definition printable (c : byte) : Prop := 32 <= bv c <= 126.
Definition username_text (u : bytes) : Prop :=
  u <> [] /\ Forall (fun c => printable c /\ ~ In c username_banned) u.

(** [leading s n]: [n] is the number written by the longest run of digits at the start
    of [s] (0 if there is none). *)
Definition leading (s : bytes) (n : Z) : Prop :=
  exists ds rest, s = ds ++ rest /\ all_digits ds /\
    (rest = [] \/ ~ digit (hd x00 rest)) /\ n = decimal ds.

(** [integer_text s n]: after optional blanks and an optional sign, [s] starts with the
    digits of [n]. *)
Definition integer_text (s : bytes) (n : Z) : Prop :=
  exists sp body, s = sp ++ body /\ Forall blank sp /\ ~ blank (hd x00 body) /\
    ( (exists r m, body = "-"%byte :: r /\ leading r m /\ n = - m)
      \/ (exists r, body = "+"%byte :: r /\ leading r n)
      \/ (hd x00 body <> "-"%byte /\ hd x00 body <> "+"%byte /\ leading body n) ).
