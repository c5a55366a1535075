(** Directories as the kernel keeps them, for the run directory of the daemon. *)
From Verif Require Import Bytes.
From Coq Require Import Init.Byte List ZArith Bool.
Import ListNotations.
Open Scope Z_scope.

(** A directory that may be searched and written to, or anything else *)
Inductive node := Dir (search write : bool) | File.
(** What is at a place: the names on the way to it from the root *)
Definition tree := list bytes -> option node.
(** The names in a path: what stands between the slashes *)
Definition slash : byte := "/"%byte.
Fixpoint names_from (cur : bytes) (p : bytes) : list bytes :=
  match p with
  | [] => match cur with [] => [] | _ => [cur] end
  | c :: r => if beq c slash then match cur with [] => names_from [] r | _ => cur :: names_from [] r end else names_from (cur ++ [c]) r
  end.
Definition names (p : bytes) : list bytes := names_from [] p.
(** Why a place is not found: it does not exist, or something else *)
Inductive fault := Noent | Trouble.
Section Kernel.
(** The names that the file system takes *)
Variable ok : bytes -> bool.
Fixpoint walk (t : tree) (at_ rest : list bytes) : fault + node :=
  match t at_ with
  | None => inl Noent
  | Some n =>
      match rest with
      | [] => inr n
      | x :: rest => match n with Dir true _ => if ok x then walk t (at_ ++ [x]) rest else inl Trouble | _ => inl Trouble end
      end
  end.
Fixpoint ends_in_slash (p : bytes) : bool := match p with [] => false | [c] => beq c slash | _ :: r => ends_in_slash r end.
(** stat(2) of an absolute path *)
Definition stat (t : tree) (p : bytes) : fault + node :=
  match walk t [] (names p) with
  | inr File => if ends_in_slash p then inl Trouble else inr File
  | x => x
  end.
Definition with_dir (l : list bytes) (t : tree) : tree := fun q => if list_eq_dec (list_eq_dec Byte.byte_eq_dec) q l then Some (Dir true true) else t q.
(** mkdir(2) with mode 0700 by the owner; the list tells whether it fails for another reason (full
    disk, ...), empty: it does not *)
Definition mkdir (p : bytes) (s : tree * list bool) : bool * (tree * list bool) :=
  let '(t, fs) := s in
  let fails := match fs with [] => false | f :: _ => f end in
  let l := names p in
  match walk t [] (removelast l), l with
  | inr (Dir true true), _ :: _ =>
      if negb fails && ok (last l []) && (match t l with None => true | Some _ => false end)
      then (true, (with_dir l t, tl fs)) else (false, (t, tl fs))
  | _, _ => (false, (t, tl fs))
  end.
End Kernel.

(** The way to the place [l]: the places that are passed, and [l] *)
Definition on_the_way (q l : list bytes) : Prop := exists r, l = q ++ r.
(** Nothing is lost or changed, and only directories on the way to [l] are new *)
Definition only_makes (l : list bytes) (t t' : tree) : Prop :=
  (forall q n, t q = Some n -> t' q = Some n) /\
  (forall q n, t q = None -> t' q = Some n -> n = Dir true true /\ on_the_way q l).
(** What is in a directory is in a directory *)
Definition tree_ok (t : tree) : Prop := forall q x, t (q ++ [x]) <> None -> exists s w, t q = Some (Dir s w).
(** What is there on the way to [l] is a directory that may be searched and written to *)
Definition usable (l : list bytes) (t : tree) : Prop := forall q, on_the_way q l -> t q = None \/ t q = Some (Dir true true).
