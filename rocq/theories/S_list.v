(** The listings of fwknopd --fw-list and --fw-list-all. *)
From Verif Require Import Bytes S_text S_fw M_cycle M_fw.
From Coq Require Import Init.Byte List ZArith Bool.
Import ListNotations.
Open Scope Z_scope.

(** The command that lists chain [c], or with [all] its whole table *)
Definition listing_of (exe : bytes) (all : bool) (c : chain) : list bytes :=
  if all then [exe; $ "-t"; c_table c; $ "-v"; $ "-n"; $ "-L"; $ "--line-numbers"]
  else [exe; $ "-t"; c_table c; $ "-L"; c_to c; $ "--line-numbers"; $ "-n"].
(** [in_use cs us]: [us] are the chains of [cs] with a target, in order *)
Inductive in_use : list chain -> list chain -> Prop :=
| in_use_nil : in_use [] []
| in_use_keep c cs us : c_target c <> [] -> in_use cs us -> in_use (c :: cs) (c :: us)
| in_use_skip c cs us : c_target c = [] -> in_use cs us -> in_use (c :: cs) us.
(** What the commands do one after the other *)
Fixpoint runs {W} (exec : W -> list bytes -> W * ended * bytes) (w : W) (cmds : list (list bytes)) : W :=
  match cmds with [] => w | a :: r => runs exec (fst (fst (exec w a))) r end.
(** What iptables shows of chain [c] *)
Definition shows (K : iptables) (fw : firewall) (c : chain) : bytes :=
  match fw (c_table c) (c_to c) with Some rs => listing K (c_to c) rs | None => trouble K end.
