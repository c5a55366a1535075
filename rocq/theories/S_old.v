(** What a line of an iptables listing tells, for the daemon with an iptables without -C. *)
From Verif Require Import Bytes S_text S_fw S_extcmd M_util M_cycle M_fw.
From Coq Require Import Init.Byte List ZArith Bool.
Import ListNotations.
Open Scope Z_scope.

(** A text with blanks on both sides *)
Definition column (x line : bytes) : Prop := holds ([" "%byte] ++ x ++ [" "%byte]) line.
(** How a protocol is listed *)
Definition protocol (p : Z) (x : bytes) : Prop :=
  p = 6 /\ x = $ "tcp" \/ p = 17 /\ x = $ "udp" \/ p = 1 /\ x = $ "icmp" \/ p <> 6 /\ p <> 17 /\ p <> 1 /\ numeral p x.
(** [tells src dst proto port e target line]: the line has the source, the protocol, the port, the
    expiry and the target, and the destination if one is given.  Protocol 0 and port 0 are any. *)
Definition tells (src : bytes) (dst : option bytes) (proto port e : Z) (target line : bytes) : Prop :=
  column src line /\ column target line /\
  (proto <> 0 -> exists x, protocol proto x /\ column x line) /\
  (port <> 0 -> exists x, numeral port x /\ holds ($ "dpt:" ++ x ++ $ " ") line) /\
  (exists x, numeral e x /\ holds (x ++ $ " ") line) /\
  match dst with Some d => column d line | None => True end.
(** The line of rule [r] in a listing, with some number *)
Definition line_of (K : iptables) (r : rule) (line : bytes) : Prop := exists k, line = number K k ++ [" "%byte] ++ show K r.
(** A rule whose line in the listing tells of the access *)
Definition told (K : iptables) (cf : fwconf) (src dst : bytes) (proto port e : Z) (c : chain) (r : rule) : Prop :=
  exists line, line_of K r line /\ tells src (if f_use_dst cf then Some dst else None) proto port e (c_target c) line.
(** The lines of the rules of a listing *)
Fixpoint shown_lines (K : iptables) (k : Z) (rs : list rule) : list bytes :=
  match rs with [] => [] | r :: rest => (number K k ++ [" "%byte] ++ show K r) :: shown_lines K (k + 1) rest end.
(** [first_with e l ls]: [l] is the first of the lines [ls] with the number [e] and a blank; it and those
    before it are lines that the search takes in one piece *)
Definition first_with (e : Z) (l : bytes) (ls : list bytes) : Prop :=
  exists before after x, ls = before ++ l :: after /\ Forall plain_line (before ++ [l]) /\ zlen l < 254 /\ numeral e x /\
    holds (x ++ $ " ") l /\ forall y, In y before -> ~ holds (x ++ $ " ") y.
(** [sends_to ip n line]: the one " to:" of the line is followed by the address [ip], a colon and the port
    [n], and then the line ends or a blank follows; there is no other colon after it *)
Definition sends_to (ip : bytes) (n : Z) (line : bytes) : Prop :=
  exists a x post, line = a ++ $ " to:" ++ ip ++ [":"%byte] ++ x ++ post /\ numeral n x /\
    ~ holds ($ " to:") (a ++ $ " to") /\ ~ holds ($ " to:") (ip ++ [":"%byte] ++ x ++ post) /\
    ~ In ":"%byte ip /\ ~ In ":"%byte post /\ (post = [] \/ exists y, post = " "%byte :: y).
