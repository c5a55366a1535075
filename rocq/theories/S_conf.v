(** What a line of fwknopd.conf says, written without reference to the reader in M_conf. *)
From Verif Require Import Bytes S_text.
From Coq Require Import Init.Byte List ZArith.
Import ListNotations.
Open Scope Z_scope.

(** The characters at which the value of a line ends *)
Definition stops (c : byte) : Prop := In c [";"%byte; x0a; x0d].
(** A comment or an empty line: only the first character counts *)
Definition comment (l : bytes) : Prop := l = [] \/ In (hd x00 l) ["#"%byte; ";"%byte; x0a; x0d].

(** [written l n v t]: line [l] is a variable name [n], blanks, the value [v] and more blanks
    [t], up to the end of the line or the first semicolon or line end; the value begins and
    ends with a character that is not blank. *)
Definition written (l n v t : bytes) : Prop :=
  ~ comment l /\
  exists sp1 sp2 rest,
    l = sp1 ++ n ++ sp2 ++ v ++ t ++ rest /\
    Forall blank sp1 /\ n <> [] /\ Forall (fun c => ~ blank c) n /\ sp2 <> [] /\ Forall blank sp2 /\
    v <> [] /\ ~ blank (hd x00 v) /\ ~ blank (last v x00) /\ Forall (fun c => ~ stops c) v /\
    Forall (fun c => blank c /\ ~ stops c) t /\ (rest = [] \/ stops (hd x00 rest)).
(** Line [l] gives variable [n] the value [v]. *)
Definition gives (l n v : bytes) : Prop := exists t, written l n v t.

(** A line as it can stand in a file: no line end, no NUL, and short enough for the reader. *)
Definition line_ok (l : bytes) : Prop := ~ In x0a l /\ ~ In x00 l /\ zlen l <= 1022.
(** The file with these lines *)
Definition file (lines : list bytes) : bytes := join [x0a] lines.
(** A line that gives no value, or gives a value that is taken as it stands: not with a leading
    dollar sign, and not one single character with blanks behind it. *)
Definition plain (l : bytes) : Prop :=
  forall n v t, written l n v t -> hd x00 v <> "$"%byte /\ (2 <= zlen v \/ t = []).
(** [settles lines n old new]: the last line about [n] gives the value [new]; if there is none
    the old value stays. *)
Definition settles (lines : list bytes) (n : bytes) (old new : option bytes) : Prop :=
  (exists pre l post v, lines = pre ++ l :: post /\ gives l n v /\ new = Some v /\
                        forall l' v', In l' post -> ~ gives l' n v') \/
  ((forall l v, In l lines -> ~ gives l n v) /\ new = old).

(** A reference to a variable: a dollar sign, the name in capital letters and underscores, and
    a rest without blanks that begins with another character *)
Definition capital (c : byte) : Prop := 65 <= bv c <= 90 \/ c = "_"%byte.
Definition refers (v m r : bytes) : Prop :=
  v = "$"%byte :: m ++ r /\ m <> [] /\ Forall capital m /\ r <> [] /\ ~ capital (hd x00 r) /\
  Forall (fun c => ~ blank c) r.
