(** Property theorems: the run directory of the daemon. *)
From Verif Require Import Bytes M_util P_bytes P_util S_dir M_dir P_dir.
From Coq Require Import Init.Byte List ZArith Bool Lia.
Import ListNotations.
Open Scope Z_scope.

(** ** C96 The run directory *)
(** Whatever is in the file system, whatever fails and whatever the path: the check ends and reads
    no memory that is not set; nothing that was there is lost or changed; what is new is a
    directory for the owner only, on the way to the first 1023 characters of the path. *)
Theorem C96_only : forall ok p t fs, exists b t' fs', check_dir_path ok p (t, fs) = Ok (b, (t', fs')) /\ only_makes (names (ztake 1023 p)) t t'.
Proof.
  intros ok p t fs. rewrite check_long.
  destruct (check_spec ok (ztake 1023 p) (t, fs)) as (b & [t' fs'] & R & G & _); [apply cut_short|].
  exists b, t', fs'. auto.
Qed.
Print Assumptions C96_only.
(** If the daemon goes on, then the path is absolute and a directory is there.
    Missing for the full claim: paths of 1024 characters and more, see below. *)
Theorem C96_there_partial : forall ok p t fs t' fs', zlen p <= 1023 -> t [] = Some (Dir true true) ->
  check_dir_path ok p (t, fs) = Ok (true, (t', fs')) ->
  hd x00 p = slash /\ exists s w, stat ok t' p = inr (Dir s w).
Proof.
  intros ok p t fs t' fs' L T0 E. destruct (check_spec ok p (t, fs) L) as (b & s' & R & G & H). rewrite E in R. injection R as <- <-.
  destruct (H eq_refl) as [A [->|D]]; split; auto. exists true, true. apply stat_dir. cbn [names names_from]. change (walk ok t' [] [] = inr (Dir true true)).
  cbn [walk]. cbn [fst] in G. now rewrite (proj1 G _ _ T0).
Qed.
Print Assumptions C96_there_partial.
(** If what is there of the path are directories in which the daemon may make others, and the file
    system takes the names and makes what it is told to, then the daemon goes on, and so the
    directory is there (C96_there_partial).
    Missing for the full claim: paths with two slashes at the end, see below. *)
Theorem C96_made_partial : forall ok p t, zlen p <= 1023 -> hd x00 p = slash -> (forall a, p <> a ++ [slash; slash]) ->
  tree_ok t -> t [] = Some (Dir true true) -> usable (names p) t -> (forall n, In n (names p) -> ok n = true) ->
  exists t', check_dir_path ok p (t, []) = Ok (true, (t', [])).
Proof. exact check_made. Qed.
Print Assumptions C96_made_partial.
(** A path that is not absolute is refused. *)
Theorem C96_relative : forall ok p s, hd x00 p <> slash -> check_dir_path ok p s = Ok (false, s).
Proof. intros ok p s H. unfold check_dir_path. apply beq_neq in H. now rewrite H. Qed.
Print Assumptions C96_relative.

Definition at_ (l : list bytes) (n : node) (t : tree) : tree := fun q => if list_eq_dec (list_eq_dec Byte.byte_eq_dec) q l then Some n else t q.
Definition root9 : tree := at_ [] (Dir true true) (fun _ => None).
Definition tree9 : tree := at_ [$ "var"] (Dir true true) root9.
Definition all_names (n : bytes) : bool := zlen n <=? 255.
Definition place (r : outcome (bool * (tree * list bool))) (l : list bytes) : option (bool * option node) :=
  match r with Ok (b, (t, _)) => Some (b, t l) | Fault => None end.
Example C96_ex :
  names ($ "/var/run/fwknop/") = [$ "var"; $ "run"; $ "fwknop"] /\ tree_ok tree9 /\ usable (names ($ "/var/run/fwknop/")) tree9 /\
  (forall n, In n (names ($ "/var/run/fwknop/")) -> all_names n = true) /\
  place (check_dir_path all_names ($ "/var/run/fwknop/") (tree9, [])) [$ "var"; $ "run"; $ "fwknop"] = Some (true, Some (Dir true true)) /\
  place (check_dir_path all_names ($ "/var/run/fwknop/") (tree9, [])) [$ "var"; $ "run"] = Some (true, Some (Dir true true)) /\
  place (check_dir_path all_names ($ "/var/run/fwknop/") (tree9, [false; true])) [$ "var"; $ "run"] = Some (false, Some (Dir true true)) /\
  place (check_dir_path all_names ($ "/var/run/fwknop/") (at_ [$ "var"] File root9, [])) [$ "var"; $ "run"] = Some (false, None).
Proof.
  split; [reflexivity|]. split.
  { intros q x H. unfold tree9, root9, at_ in *. destruct (list_eq_dec _ (q ++ [x]) [$ "var"]) as [E|N].
    - assert (q = []) as -> by (destruct q as [|? [|]]; [reflexivity|discriminate|discriminate]). exists true, true. reflexivity.
    - destruct (list_eq_dec _ (q ++ [x]) []) as [E|N']; [destruct q; discriminate|easy]. }
  split. { intros q _. unfold tree9, root9, at_. destruct (list_eq_dec _ q _); auto. destruct (list_eq_dec _ q _); auto. }
  split. { intros n [<-|[<-|[<-|[]]]]; reflexivity. }
  repeat split; vm_compute; reflexivity.
Qed.

(** Claim: if the directory can be made, the daemon makes it and goes on.  One slash at the end of
    the path is removed, of two slashes one stays: the directory is made in the loop over the
    slashes, then it is made again, which fails.  The daemon ends with an error although the
    directory is there now, and goes on when it is started again. *)
Theorem C96_slashes_refuted : exists t',
  check_dir_path all_names ($ "/run/fwknop//") (root9, []) = Ok (false, (t', [])) /\
  stat all_names t' ($ "/run/fwknop//") = inr (Dir true true) /\
  check_dir_path all_names ($ "/run/fwknop//") (t', []) = Ok (true, (t', [])).
Proof. exists (with_dir [$ "run"; $ "fwknop"] (with_dir [$ "run"] root9)). split; [reflexivity|]. split; reflexivity. Qed.
Print Assumptions C96_slashes_refuted.
Fixpoint deep (n : nat) : bytes := match n with O => [] | S n => slash :: repeat "a"%byte 250 ++ deep n end.
(** Claim: if the daemon goes on, its run directory is there.  Of a path of 1024 characters or more,
    which the option -r may have, only the first 1023 are looked at and made. *)
Theorem C96_long_refuted : exists t',
  check_dir_path all_names (deep 5) (root9, []) = Ok (true, (t', [])) /\ stat all_names t' (deep 5) = inl Noent.
Proof.
  assert (B : match check_dir_path all_names (deep 5) (root9, []) with
              | Ok (true, (t, [])) => match stat all_names t (deep 5) with inl Noent => true | _ => false end
              | _ => false
              end = true) by (vm_compute; reflexivity).
  revert B. generalize (deep 5). intros p.
  destruct (check_dir_path all_names p (root9, [])) as [[[|] [t' [|]]]|]; try discriminate.
  destruct (stat all_names t' p) as [[|]|] eqn:S; try discriminate. intros _. exists t'. auto.
Qed.
Print Assumptions C96_long_refuted.
