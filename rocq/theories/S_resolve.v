(** What the client is to find out and send with -R, written without reference to its code. *)
From Verif Require Import Bytes S_text.
From Coq Require Import Init.Byte List ZArith Bool.
Import ListNotations.
Open Scope Z_scope.

(** ** Answers *)

(** The end of an HTTP header *)
Definition blank_line : bytes := [x0d; x0a; x0d; x0a].
Definition address_char (c : byte) : Prop := digit c \/ c = "."%byte.
(** A number that is at most 255 once it is stored in 32 bits *)
Definition small (s : bytes) : Prop := s <> [] /\ all_digits s /\ decimal s mod 4294967296 <= 255.
(** Four numbers and whatever follows them *)
Definition four_numbers (s : bytes) : Prop :=
  exists A B C D more, s = A ++ ["."%byte] ++ B ++ ["."%byte] ++ C ++ ["."%byte] ++ D ++ more /\
    small A /\ small B /\ small C /\ small D /\ (more = [] \/ ~ digit (hd x00 more)).
(** The text [s] names the address [ip]: of the digits and dots at its front, at most 16, the
    first 15. *)
Definition names (s ip : bytes) : Prop :=
  exists run rest, s = run ++ rest /\ Forall address_char run /\ zlen run <= 16 /\
    (rest = [] \/ ~ address_char (hd x00 rest) \/ zlen run = 16) /\ four_numbers run /\ ip = ztake 15 run.
(** The pieces of an answer that are kept: up to the first with which it would have 2000
    bytes or more. *)
Definition kept (pieces : list bytes) (t : bytes) : Prop :=
  exists k d, pieces = k ++ d /\ t = concat k /\ Forall (fun p => p <> []) k /\ zlen t < 2000 /\
    match d with [] => True | p :: _ => p = [] \/ 2000 <= zlen t + zlen p end.
(** An answer (up to its first NUL) names an address behind its header. *)
Definition answer_names (pieces : list bytes) (ip : bytes) : Prop :=
  exists t text rest header body, kept pieces t /\ t = text ++ rest /\ no_nul text /\ (rest = [] \/ hd x01 rest = x00) /\
    text = header ++ blank_line ++ body /\ (forall a b, header ++ [x0d; x0a; x0d] <> a ++ blank_line ++ b) /\ names body ip.

(** An ordinary address *)
Definition plain_address (ip : bytes) : Prop :=
  exists A B C D a b c d, ip = A ++ ["."%byte] ++ B ++ ["."%byte] ++ C ++ ["."%byte] ++ D /\
    canonical_octet A a /\ canonical_octet B b /\ canonical_octet C c /\ canonical_octet D d.

(** ** URLs *)

(** The text of scheme://host[:port][/path] *)
Definition url_text (scheme host : bytes) (port : option bytes) (path : bytes) : bytes :=
  scheme ++ $ "://" ++ host ++ match port with Some p => [":"%byte] ++ p | None => [] end ++ path.
(** A host, a port of at most [n] digits without leading zero, and a path that is empty or begins with a
    slash, does not end with one and has no colon. *)
Record url_ok (n : Z) (host : bytes) (port : option bytes) (path : bytes) : Prop := {
  uk_host : no_nul host /\ ~ In ":"%byte host /\ ~ In "/"%byte host /\ host <> [] /\ zlen host <= 254;
  uk_port : match port with Some p => all_digits p /\ hd x00 p <> "0"%byte /\ zlen p <= n /\ 1 <= decimal p <= 65535 | None => True end;
  uk_path : no_nul path /\ ~ In ":"%byte path /\ zlen path <= 1024 /\
            (path = [] \/ (hd x00 path = "/"%byte /\ last path x00 <> "/"%byte)) }.
Definition port_or_80 (port : option bytes) : bytes := match port with Some p => p | None => $ "80" end.
Definition path_or_root (path : bytes) : bytes := match path with [] => $ "/" | _ => path end.
(** The request for a page *)
Definition line (s : bytes) : bytes := s ++ [x0d; x0a].
Definition get_page (agent host path : bytes) : bytes :=
  line ($ "GET " ++ path ++ $ " HTTP/1.1") ++ line ($ "User-Agent: " ++ agent) ++ line ($ "Accept: */*") ++ line ($ "Host: " ++ host) ++
  line ($ "Connection: close") ++ line [].
(** The arguments of wget *)
Definition wget_args (bin : bytes) (agent : option bytes) (u : bytes) : list bytes :=
  [bin] ++ match agent with Some a => [$ "-U"; a] | None => [] end ++ [$ "--secure-protocol=auto"; $ "--quiet"; $ "-O"; $ "-"; u].
Definition one_word (s : bytes) : Prop := s <> [] /\ Forall (fun c => ~ blank c) s.
