(** Model of the replay digest cache, server/replay_cache.c, built with USE_FILE_CACHE
    (the default).  Not modelled: log messages, the DBM variants, file permissions. *)
From Verif Require Import Bytes M_util M_codec M_access.
From Coq Require Import Init.Byte List ZArith Bool.
Import ListNotations.
Open Scope Z_scope.

Definition MAX_DIGEST_SIZE : Z := 64.   (* replay_cache.c:81 *)
Definition INET_ADDRSTRLEN : Z := 16.

(** digest_cache_info_t, server/replay_cache.h:36-49.  [ci_buf] is the allocated digest
    buffer including its terminating NUL bytes; addresses are in host byte order. *)
Record cache_info := mkCI {
  ci_buf : bytes; ci_proto : Z; ci_src : Z; ci_sport : Z; ci_dst : Z; ci_dport : Z; ci_created : Z }.
Definition ci_digest (c : cache_info) : bytes := cstr (ci_buf c).
Definition cache := list cache_info.

(** The packet data the cache stores, spa_pkt_info_t (server/fwknopd_common.h). *)
Record pkt_info := mkPkt { p_proto : Z; p_src : Z; p_sport : Z; p_dst : Z; p_dport : Z }.

(** is_replay_file_cache, replay_cache.c:434-458 *)
Fixpoint is_replay (l : cache) (digest : bytes) : outcome bool :=
  match l with
  | [] => Ok false
  | c :: r =>
      match constant_runtime_cmp (ci_buf c) digest (zlen digest) with
      | None => Fault
      | Some v => if v =? 0 then Ok true else is_replay r digest
      end
  end.

(** inet_ntop(AF_INET, ...) *)
Definition inet_ntop (a : Z) : bytes :=
  dec (a / 16777216 mod 256) ++ ["."%byte] ++ dec (a / 65536 mod 256) ++ ["."%byte] ++
  dec (a / 256 mod 256) ++ ["."%byte] ++ dec (a mod 256).

(** The element built by add_replay_file_cache, replay_cache.c:470-493: the proto field is
    an unsigned char, the ports are unsigned shorts. *)
Definition new_element (digest : bytes) (p : pkt_info) (now : Z) : cache_info :=
  mkCI (digest ++ [x00]) (p_proto p mod 256) (p_src p) (u16 (p_sport p)) (p_dst p) (u16 (p_dport p)) now.

(** The line written, replay_cache.c:509-520 *)
Definition cache_line (c : cache_info) : bytes :=
  ci_digest c ++ [" "%byte] ++ dec_i (ci_proto c) ++ [" "%byte] ++
  inet_ntop (ci_src c) ++ [" "%byte] ++ dec_i (ci_sport c) ++ [" "%byte] ++
  inet_ntop (ci_dst c) ++ [" "%byte] ++ dec_i (ci_dport c) ++ [" "%byte] ++
  dec_i (i32 (ci_created c)) ++ [x0a].

(** The on-disk cache; None = no file. *)
Definition file := option bytes.

(** add_replay_file_cache, replay_cache.c:460-525.  [writable]: fopen for appending succeeds.
    fopen "a" creates a missing file. *)
Definition add_replay (writable : bool) (digest : bytes) (p : pkt_info) (now : Z) (st : cache * file)
  : bool * (cache * file) :=
  let '(l, f) := st in
  let c := new_element digest p now in
  if writable then
    (true, (c :: l, Some (match f with Some t => t | None => [] end ++ cache_line c)))
  else (false, (c :: l, f)).

(** digest_header, replay_cache.c:222 *)
Definition digest_header : bytes :=
  $ "# <digest> <proto> <src_ip> <src_port> <dst_ip> <dst_port> <time>" ++ [x0a].

(** fgets: at most n bytes, up to and including a newline. *)
Fixpoint fgets (n : nat) (s : bytes) : bytes * bytes :=
  match n, s with
  | O, _ | _, [] => ([], s)
  | S m, c :: r => if beq c x0a then ([c], r)
                   else let '(l, t) := fgets m r in (c :: l, t)
  end.

(** sscanf directives: %Ns *)
Fixpoint take_word (n : nat) (s : bytes) : bytes * bytes :=
  match n, s with
  | O, _ | _, [] => ([], s)
  | S m, c :: r => if isspace c then ([], s)
                   else let '(w, t) := take_word m r in (c :: w, t)
  end.
Definition scan_word (n : nat) (s : bytes) : option (bytes * bytes) :=
  match take_word n (skip_space s) with
  | ([], _) => None
  | r => Some r
  end.

(** sscanf directives: %u, %d of some width; the caller truncates.  Values beyond the range
    of long are clamped by the C library; the model keeps them exact (no such value can
    influence anything but the stored port, protocol and time). *)
Fixpoint take_digits (s : bytes) : bytes * bytes :=
  match s with
  | c :: r => if isdigit c then let '(d, t) := take_digits r in (c :: d, t) else ([], s)
  | [] => ([], [])
  end.
Definition scan_num (s : bytes) : option (Z * bytes) :=
  let s1 := skip_space s in
  let '(neg, s2) := match s1 with
                    | c :: r => if beq c "-"%byte then (true, r)
                                else if beq c "+"%byte then (false, r) else (false, s1)
                    | [] => (false, [])
                    end in
  match take_digits s2 with
  | ([], _) => None
  | (d, t) => let v := digits_val 0 d in Some (if neg then - v else v, t)
  end.

(** inet_pton(AF_INET, ...) of glibc: exactly four decimal octets, no leading zeros. *)
Fixpoint inet_pton_go (s : bytes) (octets : Z) (saw : bool) (cur acc : Z) : option Z :=
  match s with
  | [] => if octets =? 4 then Some (acc * 256 + cur) else None
  | c :: r =>
      if isdigit c then
        let new := cur * 10 + (bv c - 48) in
        if (saw && (cur =? 0)) || (new >? 255) then None
        else if saw then inet_pton_go r octets true new acc
        else if octets + 1 >? 4 then None
        else inet_pton_go r (octets + 1) true new acc
      else if beq c "."%byte && saw then
        if octets =? 4 then None else inet_pton_go r octets false 0 (acc * 256 + cur)
      else None
  end.
Definition inet_pton (s : bytes) : option Z := inet_pton_go s 0 false 0 0.

(** server/utils.h:52-54 *)
Definition is_empty_line (c : byte) : bool :=
  beq c "#"%byte || beq c x0a || beq c x0d || beq c ";"%byte || beq c x00.

(** One line of the cache file, replay_cache.c:292-353; None = skipped.  The digest buffer
    has MAX_DIGEST_SIZE+1 zeroed bytes. *)
Definition load_line (line : bytes) : option cache_info :=
  let s := cstr line in
  if is_empty_line (hd x00 s) then None
  else
    do (dg, s) <- scan_word 64 s;
    do (proto, s) <- scan_num s;
    do (src, s) <- scan_word 16 s;
    do (sport, s) <- scan_num s;
    do (dst, s) <- scan_word 16 s;
    do (dport, s) <- scan_num s;
    do (created, _) <- scan_num s;
    do sa <- inet_pton src;
    do da <- inet_pton dst;
    Some (mkCI (dg ++ repeat x00 (Z.to_nat (MAX_DIGEST_SIZE + 1 - zlen dg)))
               (proto mod 256) sa (u16 sport) da (u16 dport) created).

(** The reading loop, replay_cache.c:292-361; [fuel] bounds the number of lines. *)
Fixpoint load_lines (fuel : nat) (s : bytes) (l : cache) : cache :=
  match fuel, s with
  | O, _ | _, [] => l
  | S k, _ =>
      let '(line, t) := fgets (Z.to_nat (MAX_LINE_LEN - 1)) s in
      load_lines k t (match load_line line with Some c => c :: l | None => l end)
  end.
Definition load_file (s : bytes) (l : cache) : cache := load_lines (List.length s) s l.

(** replay_file_cache_init, replay_cache.c:212-366, for a process that starts with an empty
    list; the file is created with the header if it does not exist. *)
Definition cache_init (f : file) : cache * file :=
  match f with
  | None => ([], Some digest_header)
  | Some s => (load_file s [], Some s)
  end.
