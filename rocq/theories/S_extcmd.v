(** Vocabulary for the theorems about the programs the daemon runs. *)
From Verif Require Import Bytes M_extcmd.
From Coq Require Import Init.Byte List ZArith Relations.
Import ListNotations.
Open Scope Z_scope.

(** All identities of the process are this user and this group. *)
Definition is_user (u g : Z) (c : creds) : Prop :=
  ruid c = u /\ euid c = u /\ suid c = u /\ rgid c = g /\ egid c = g /\ sgid c = g.

(** What a process may make of its identities by system calls: everything if it is the
    superuser; otherwise each user is one of the three it has, each group one of the three it
    has, and the supplementary groups stay.  (Another way is to run a program with the set-user-ID
    bit, such as sudo.) *)
Definition may_become (c d : creds) : Prop :=
  euid c = 0 \/
  (let us := [ruid c; euid c; suid c] in let gs := [rgid c; egid c; sgid c] in
   In (ruid d) us /\ In (euid d) us /\ In (suid d) us /\ In (rgid d) gs /\ In (egid d) gs /\ In (sgid d) gs /\ groups d = groups c).
Definition ever_becomes : creds -> creds -> Prop := clos_refl_trans creds may_become.

(** The child [pid] ends with status [st] in this history, and before that no child of this
    number ends. *)
Definition ends_with (pid st : Z) (before after : list event) (l : list event) : Prop :=
  l = before ++ [End pid st] ++ after /\ forall s, ~ In (End pid s) before.

(** The output of a program: whole lines. *)
Definition text_lines (out : bytes) (ls : list bytes) : Prop :=
  out = concat (map (fun l => l ++ [x0a]) ls) /\ Forall (fun l => ~ In x0a l) ls.
Definition holds (sub line : bytes) : Prop := exists a b, line = a ++ sub ++ b.
(** The lines the search looks at in one piece: shorter than 255 bytes, without zero bytes, and
    not taken for a comment. *)
Definition plain_line (l : bytes) : Prop :=
  zlen l < 255 /\ ~ In x00 l /\ match l with [] => True | c :: _ => c <> "#"%byte /\ c <> ";"%byte /\ c <> x0d end.
