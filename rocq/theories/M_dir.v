(** Model of check_dir_path and make_dir_path, server/fwknopd.c:720-867: the run directory of the
    daemon is looked for and made.
    Simplified: nothing else changes the file system meanwhile; the names . and .. are names like
    others; a link to a directory is the directory.  use_basename is 0, as in the only call
    (line 129).  Not modelled: messages. *)
From Verif Require Import Bytes M_util S_dir.
From Coq Require Import Init.Byte List ZArith Bool.
Import ListNotations.
Open Scope Z_scope.

Definition MAX_PATH_LEN : Z := 1024.                  (* common/common.h:158 *)
Section Dirs.
Variable ok : bytes -> bool.
(** The loop of make_dir_path, fwknopd.c:818-853: [pre] is the text before ndx, [rest] the text from
    ndx on; [filled]: a stat has succeeded, so that st is set, and to a directory.  A read of st
    before that is a Fault.  false: the function returns an error *)
Fixpoint parts (filled : bool) (pre rest : bytes) (s : tree * list bool) : outcome (bool * (tree * list bool)) :=
  match rest with
  | [] => Ok (true, s)
  | c :: r =>
      if beq c slash then
        match stat ok (fst s) pre with
        | inr (Dir _ _) => parts true (pre ++ [c]) r s
        | inr File => Ok (false, s)
        | inl Noent =>
            let '(made, s) := mkdir ok pre s in
            if made then
              match stat ok (fst s) pre with
              | inr (Dir _ _) => parts true (pre ++ [c]) r s
              | _ => Ok (false, s)
              end
            else Ok (false, s)
        | inl Trouble => if filled then parts true (pre ++ [c]) r s else Fault
        end
      else parts filled (pre ++ [c]) r s
  end.
(** make_dir_path, fwknopd.c:806-867; of an empty path the byte after the NUL is read *)
Definition make_dir_path (run_dir : bytes) (s : tree * list bool) : outcome (bool * (tree * list bool)) :=
  let tmp_path := chop_char (ztake (MAX_PATH_LEN - 1) run_dir) slash in
  match tmp_path with
  | [] => Fault
  | c :: r =>
      match parts false [c] r s with
      | Ok (true, s) => Ok (mkdir ok tmp_path s)
      | x => x
      end
  end.
(** check_dir_path, fwknopd.c:720-804 *)
Definition check_dir_path (filepath : bytes) (s : tree * list bool) : outcome (bool * (tree * list bool)) :=
  if negb (beq (hd x00 filepath) slash) then Ok (false, s)
  else
    let tmp_path := ztake (MAX_PATH_LEN - 1) filepath in
    if zlen tmp_path <? 2 then Ok (true, s)
    else
      match stat ok (fst s) tmp_path with
      | inl Noent => make_dir_path tmp_path s
      | inl Trouble => Ok (false, s)
      | inr (Dir _ _) => Ok (true, s)
      | inr File => Ok (false, s)
      end.
End Dirs.
