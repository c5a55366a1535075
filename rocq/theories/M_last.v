(** Model of the client's file with the arguments of the last run: prev_exec and the functions
    it calls, client/fwknop.c:847-1035. *)
From Verif Require Import Bytes M_accfile M_base64 M_util M_message M_codec M_replay M_client M_rc.
From Coq Require Import Init.Byte List ZArith Bool.
Import ListNotations.
Open Scope Z_scope.

(** strlcat into args_str[MAX_LINE_LEN], on the text it holds; see [M_util.strlcat] and
    P_util2.strlcat_spec. *)
Definition cat_line (s a : bytes) : bytes := s ++ ztake (1024 - zlen s - 1) a.
(** The loop of save_args, fwknop.c:1016-1025; None: the arguments are too long.  The length that
    is checked is that of the arguments, without the blanks between them. *)
Fixpoint save_loop (argv : list bytes) (len : Z) (s : bytes) : option bytes :=
  match argv with
  | [] => Some s
  | a :: r => let len := len + zlen a in
              if len >=? 1024 then None else save_loop r len (cat_line (cat_line s a) [" "%byte])
  end.
(** save_args, fwknop.c:1003-1035: the file afterwards and the return value.  That the file cannot
    be written is not modelled. *)
Definition save_args (argv : list bytes) : bytes * bool :=
  match save_loop argv 0 [] with
  | None => ([], false)
  | Some s => (cat_line s [x0a], true)
  end.
(** The line run_last_args and show_last_command read with fgets, fwknop.c:912, 953; None: there
    is none.  verify_file_perms_ownership only warns. *)
Definition last_line (f : bytes) : option bytes :=
  match f with [] => None | _ => Some (cstr (fst (fgets (Z.to_nat 1023) f))) end.
(** The arguments with which run_last_args calls config_init, fwknop.c:928-979; those of an empty
    file are none. *)
Definition last_args (f : option bytes) : step (list bytes) :=
  match f with
  | None => fail
  | Some f => match last_line f with None => ret [] | Some s => strtoargv s end
  end.

(** Files by name *)
Definition files : Type := bytes -> option bytes.
Definition put (p s : bytes) (fs : files) : files := fun q => if bseq q p then Some s else fs q.
(** The name of the file, fwknop.c:855-876; [home]: $HOME/.fwknop.run, None if there is no HOME. *)
Definition args_path (home : option bytes) (o : copts) : option bytes :=
  if given (txt o t_args_file) then Some (txt o t_args_file) else if is_set o q_no_home then None else home.
(** A run of the client up to prev_exec, fwknop.c:101-118: config_init, then prev_exec.  [getopt]
    is getopt_long: the options in a list of arguments.  The result: the options main goes on with,
    None if the program ends; and the files.  (With --show-last the program ends after prev_exec;
    with --last the file read is that of the first config_init.) *)
Definition start (getopt : list bytes -> list arg) (home : option bytes) (rc : option bytes) (argv : list bytes) (fs : files) : step (copts * mask) * files :=
  match config_init rc (getopt argv) with
  | Ok (Some (o, m)) =>
      match args_path home o with
      | None => (fail, fs)
      | Some p =>
          if is_set o q_run_last then
            (try argv' <- last_args (fs p); config_init rc (getopt argv'), fs)
          else if is_set o q_show_last then (fail, fs)
          else if is_set o q_no_save then (ret (o, m), fs)
          else let '(s, ok) := save_args argv in ((if ok then ret (o, m) else fail), put p s fs)
      end
  | r => (r, fs)
  end.
(** One after the other: the rc file at the time of each run, and its arguments *)
Definition runs (getopt : list bytes -> list arg) (home : option bytes) (l : list (option bytes * list bytes)) (fs : files) : files :=
  fold_left (fun fs r => snd (start getopt home (fst r) (snd r) fs)) l fs.
