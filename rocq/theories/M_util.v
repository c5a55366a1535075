(** Model of common/fko_util.c, common/strlcpy.c, common/strlcat.c and of the C library
    routines [strtol] and [inet_aton] they rely on. *)
From Verif Require Import Bytes.
From Coq Require Import Init.Byte List ZArith Bool.
Import ListNotations.
Open Scope Z_scope.

(** common/fko_util.c:88-106, [constant_runtime_cmp].  The counters and the loop are kept;
    reading past either buffer is the [None] outcome. *)
Fixpoint crc_loop (n : nat) (a b : bytes) (good bad : Z) : option (Z * Z) :=
  match n with
  | O => Some (good, bad)
  | S n' => match a, b with
            | x :: a', y :: b' =>
                if beq x y then crc_loop n' a' b' (good + 1) bad
                else crc_loop n' a' b' good (bad + 1)
            | _, _ => None
            end
  end.
Definition constant_runtime_cmp (a b : bytes) (len : Z) : option Z :=
  match crc_loop (Z.to_nat len) a b 0 0 with
  | None => None
  | Some (good, bad) => Some (if good =? len then 0 else 0 - bad)
  end.

(** lib/fko_limits.h, MIN_SPA_ENCODED_MSG_SIZE and MAX_SPA_ENCODED_MSG_SIZE. *)
Definition MIN_SPA_ENCODED_MSG_SIZE : Z := 36.
Definition MAX_SPA_ENCODED_MSG_SIZE : Z := 1500.

(** common/fko_util.c:110-120. *)
Definition is_valid_encoded_msg_len (len : Z) : bool :=
  negb ((len <? MIN_SPA_ENCODED_MSG_SIZE) || (len >=? MAX_SPA_ENCODED_MSG_SIZE)).

(** ** C library: strtol *)

Fixpoint skip_space (s : bytes) : bytes :=
  match s with
  | c :: r => if isspace c then skip_space r else s
  | [] => []
  end.

(** Value of the leading decimal digits and whether there were any. *)
Fixpoint digits_val (acc : Z) (s : bytes) : Z :=
  match s with
  | c :: r => if isdigit c then digits_val (acc * 10 + (bv c - 48)) r else acc
  | [] => acc
  end.

Definition LONG_MAX : Z := 9223372036854775807.
Definition LONG_MIN : Z := -9223372036854775808.

(** [strtol(s, NULL, 10)] of a 64-bit glibc: skip white space, optional sign, decimal
    digits; clamp to the range of [long] and report ERANGE. *)
Definition strtol (s : bytes) : Z * bool :=
  let s1 := skip_space s in
  let '(neg, s2) := match s1 with
                    | c :: r => if beq c "-"%byte then (true, r)
                                else if beq c "+"%byte then (false, r) else (false, s1)
                    | [] => (false, [])
                    end in
  let v := digits_val 0 s2 in
  let v := if neg then - v else v in
  if v >? LONG_MAX then (LONG_MAX, true)
  else if v <? LONG_MIN then (LONG_MIN, true)
  else (v, false).

Inductive strtol_err := STRTOL_OK | STRTOL_ERANGE | STRTOL_LT_MIN | STRTOL_GT_MAX.
Definition strtol_ok (e : strtol_err) : bool := match e with STRTOL_OK => true | _ => false end.

(** common/fko_util.c:507-563, [strtol_wrapper] with NO_EXIT_UPON_ERR.
    [int val = strtol(...)] truncates a [long] to [int] before the range checks. *)
Definition strtol_wrapper (s : bytes) (min max : Z) : Z * strtol_err :=
  let '(l, erange) := strtol s in
  let val := i32 l in
  let e := if erange then STRTOL_ERANGE else STRTOL_OK in
  let e := if val <? min then STRTOL_LT_MIN else e in
  let e := if (max >=? 0) && (val >? max) then STRTOL_GT_MAX else e in
  (val, e).

(** ** C library: inet_aton *)

Definition isxdigit (b : byte) : bool :=
  isdigit b || ((65 <=? bv b) && (bv b <=? 70)) || ((97 <=? bv b) && (bv b <=? 102)).
Definition digit_of (b : byte) : Z :=
  if isdigit b then bv b - 48 else if bv b <=? 70 then bv b - 55 else bv b - 87.

(** Number in the given base made of the leading digits that belong to the base;
    returns value and rest. *)
Fixpoint scan_base (base : Z) (acc : Z) (s : bytes) : Z * bytes :=
  match s with
  | c :: r => if isxdigit c && (digit_of c <? base)
              then scan_base base (acc * base + digit_of c) r
              else (acc, s)
  | [] => (acc, [])
  end.

(** [strtoul(cp, &endp, 0)] on a string that starts with a digit. *)
Definition strtoul0 (s : bytes) : Z * bytes :=
  match s with
  | c :: r =>
      if beq c "0"%byte then
        match r with
        | x :: h :: r' => if (beq x "x"%byte || beq x "X"%byte) && isxdigit h
                          then scan_base 16 0 (h :: r') else scan_base 8 0 s
        | _ => scan_base 8 0 s
        end
      else scan_base 10 0 s
  | [] => (0, [])
  end.

(** Last part of an address: it fills the bytes the leading parts left over. *)
Definition inet_aton_fin (parts : list Z) (val : Z) : option Z :=
  match parts with
  | [] => Some val
  | [a] => if val >? 16777215 then None else Some (a * 16777216 + val)
  | [b; a] => if val >? 65535 then None else Some (a * 16777216 + b * 65536 + val)
  | [c; b; a] => if val >? 255 then None else Some (a * 16777216 + b * 65536 + c * 256 + val)
  | _ => None
  end.

(** glibc's [inet_aton]: one to four numbers separated by dots, each but the last at most
    255, the last one filling the remaining bytes; trailing white space ends the number.
    [parts] holds the leading parts, most recent first.  Returns the address in host order. *)
Fixpoint inet_aton_go (fuel : nat) (parts : list Z) (s : bytes) : option Z :=
  match fuel with
  | O => None
  | S f =>
      match s with
      | c :: _ =>
          if negb (isdigit c) then None else
          let '(val, rest) := strtoul0 s in
          if val >? 4294967295 then None else
          match rest with
          | d :: rest' =>
              if beq d "."%byte then
                if (zlen parts >? 2) || (val >? 255) then None
                else inet_aton_go f (val :: parts) rest'
              else if isspace d then inet_aton_fin parts val else None
          | [] => inet_aton_fin parts val
          end
      | [] => None
      end
  end.
Definition inet_aton (s : bytes) : option Z := inet_aton_go 5 [] s.

(** lib/fko_limits.h *)
Definition MAX_IPV4_STR_LEN : Z := 16.
Definition MIN_IPV4_STR_LEN : Z := 7.

(** common/fko_util.c:141-157: count dots over the first [n] characters.
    [None]: not digit/dot or a NUL (end of the list) reached. *)
Fixpoint ipv4_scan (n : nat) (s : bytes) (dots : Z) : option Z :=
  match n with
  | O => Some dots
  | S n' => match s with
            | [] => None
            | c :: r => if beq c x00 then None
                        else if beq c "."%byte then ipv4_scan n' r (dots + 1)
                        else if isdigit c then ipv4_scan n' r dots else None
            end
  end.

(** common/fko_util.c:124-173, [is_valid_ipv4_addr(ip_str, len)] (HAVE_SYS_SOCKET_H set).
    [strncpy(tmp, ip_str, len)] into a zeroed buffer of 17 bytes gives the first [len]
    characters. *)
Definition is_valid_ipv4_addr (s : bytes) (len : Z) : bool :=
  if (len >? MAX_IPV4_STR_LEN) || (len <? MIN_IPV4_STR_LEN) then false
  else match ipv4_scan (Z.to_nat len) s 0 with
       | Some dots => if dots =? 3
                      then match inet_aton (ztake len s) with Some _ => true | None => false end
                      else false
       | None => false
       end.

(** common/fko_util.c:189-219, the loop of [is_valid_hostname]; [prev] is [*(ndx-1)].
    Returns the final label size and last character, or [None] for [return 0]. *)
Fixpoint hostname_scan (n : nat) (s : bytes) (prev : option byte) (label_size : Z)
  : option (Z * option byte) :=
  match n with
  | O => Some (label_size, prev)
  | S n' =>
      match s with
      | [] => None
      | c :: r =>
          if beq c x00 then None
          else if (if label_size =? 0 then negb (isalnum c)
                   else negb (isalnum c || beq c "."%byte || beq c "-"%byte)) then None
          else if beq c "."%byte then
                 if label_size >? 63 then None
                 else match prev with
                      | Some p => if isalnum p then hostname_scan n' r (Some c) 0 else None
                      | None => None
                      end
               else hostname_scan n' r (Some c) (label_size + 1)
      end
  end.

Inductive outcome (A : Type) := Ok (a : A) | Fault.
Arguments Ok {A} _.
Arguments Fault {A}.

(** common/fko_util.c:177-235, [is_valid_hostname(hostname_str, len)].
    With [len <= 0] the code reads the byte before the string: [Fault]. *)
Definition is_valid_hostname (s : bytes) (len : Z) : outcome bool :=
  if len >? 254 then Ok false
  else match hostname_scan (Z.to_nat len) s None 0 with
       | None => Ok false
       | Some (label_size, last) =>
           match last with
           | None => Fault
           | Some c => if beq c "-"%byte then Ok false
                       else if label_size >? 63 then Ok false else Ok true
           end
       end.

(** common/fko_util.c:567-581, [chop_whitespace]: find the last non-space at index > 0
    and cut after it; a string with only white space after index 0 is left alone. *)
Fixpoint rchop (r : bytes) : option bytes :=
  match r with
  | [] => None
  | [_] => None
  | c :: r' => if isspace c then rchop r' else Some r
  end.
Definition chop_whitespace (s : bytes) : bytes :=
  match rchop (rev s) with Some r => rev r | None => s end.

(** common/fko_util.c:626-627, the loop storing zeroes; [None] is a store outside the
    buffer. *)
Fixpoint zero_loop (n : nat) (buf : bytes) : option bytes :=
  match n with
  | O => Some buf
  | S n' => match buf with
            | [] => None
            | _ :: r => match zero_loop n' r with Some r' => Some (x00 :: r') | None => None end
            end
  end.

(** common/fko_util.c:613-636, [zero_buf] for a buffer that is not NULL.  The result is
    the buffer afterwards and whether FKO_SUCCESS was returned (the second loop compares
    every byte with zero); storing outside the buffer is [Fault]. *)
Definition zero_buf (buf : bytes) (len : Z) : outcome (bytes * bool) :=
  if len =? 0 then Ok (buf, true)
  else if (len <? 0) || (len >? MAX_SPA_ENCODED_MSG_SIZE) then Ok (buf, false)
  else match zero_loop (Z.to_nat len) buf with
       | None => Fault
       | Some b => Ok (b, forallb (beq x00) (ztake len b))
       end.

(** common/fko_util.c:712-728, [is_base64(buf, len)]; [len] is an [unsigned short]. *)
Definition b64_class (c : byte) : bool :=
  isalnum c || beq c "/"%byte || beq c "+"%byte || beq c "="%byte.
Definition is_base64 (s : bytes) (len : Z) : bool := forallb b64_class (ztake (u16 len) s).

(** common/fko_util.c:730-739 and 741-746. *)
Definition chop_char (s : bytes) (c : byte) : bytes :=
  match rev s with
  | x :: y :: r => if beq x c then rev (y :: r) else s
  | _ => s
  end.
Definition chop_newline (s : bytes) : bytes := chop_char s x0a.

(** common/fko_util.c:748-761. *)
Fixpoint rchop_spaces (r : bytes) : bytes :=
  match r with
  | [] => []
  | [c] => [c]
  | c :: r' => if beq c " "%byte then rchop_spaces r' else r
  end.
Definition chop_spaces (s : bytes) : bytes := rev (rchop_spaces (rev s)).

(** common/fko_util.h:35-36. *)
Definition MAX_CMDLINE_ARGS : Z := 30.
Definition MAX_ARGS_LINE_LEN : Z := 1024.

(** common/fko_util.c:763-784, [add_argv]: append; fails once MAX_CMDLINE_ARGS-1
    arguments are stored.  (Allocation failure is not modelled.) *)
Definition add_argv (argv : list bytes) (a : bytes) : list bytes * bool :=
  let argv' := argv ++ [a] in
  (argv', negb (zlen argv' >=? MAX_CMDLINE_ARGS - 1)).

(** common/fko_util.c:786-826, [strtoargv].  [arg] is the part of [arg_tmp] filled so far;
    a store at index MAX_ARGS_LINE_LEN or beyond is [Fault].
    [Ok None] is the error return 0. *)
Fixpoint strtoargv_go (s : bytes) (argv : list bytes) (arg : bytes) : outcome (option (list bytes)) :=
  match s with
  | [] =>
      if zlen arg >? 0 then
        if zlen arg >=? MAX_ARGS_LINE_LEN then Fault
        else let '(argv', ok) := add_argv argv arg in
             Ok (if ok then Some argv' else None)
      else Ok (Some argv)
  | c :: r =>
      if negb (isspace c) then
        if zlen arg >=? MAX_ARGS_LINE_LEN then Fault
        else strtoargv_go r argv (arg ++ [c])
      else if zlen arg >? 0 then
        if zlen arg >=? MAX_ARGS_LINE_LEN then Fault
        else let '(argv', ok) := add_argv argv arg in
             if ok then strtoargv_go r argv' [] else Ok None
      else strtoargv_go r argv []
  end.
Definition strtoargv (s : bytes) : outcome (option (list bytes)) := strtoargv_go s [] [].

(** common/strlcpy.c:42-66.  The destination is a byte array [dst] of at least [siz]
    bytes; the result is the array afterwards and the return value.
    [src] is the C string (no NUL inside). *)
Fixpoint strlcpy_loop (n : nat) (src : bytes) : bytes * bool :=
  (* up to [n] bytes stored; [true] if the terminating NUL was among them *)
  match n with
  | O => ([], false)
  | S n' => match src with
            | [] => ([x00], true)
            | c :: r => let '(w, done) := strlcpy_loop n' r in (c :: w, done)
            end
  end.
Definition strlcpy_stores (src : bytes) (siz : Z) : bytes :=
  if siz =? 0 then []
  else let '(w, done) := strlcpy_loop (Z.to_nat (siz - 1)) src in
       if done then w else w ++ [x00].
Definition strlcpy (dst src : bytes) (siz : Z) : bytes * Z :=
  let w := strlcpy_stores src siz in
  (w ++ zdrop (zlen w) dst, zlen src).

(** common/strlcat.c:60-67: bytes stored from the end of [dst] on, [n] being the room
    left. *)
Fixpoint strlcat_loop (n : Z) (src : bytes) : bytes :=
  match src with
  | [] => [x00]
  | c :: r => if n =? 1 then strlcat_loop n r else c :: strlcat_loop (n - 1) r
  end.

(** common/strlcat.c:44-70.  [dst] is the whole array; the scan for its end is bounded by
    [siz].  Result: the array afterwards and the return value. *)
Definition strlcat (dst src : bytes) (siz : Z) : bytes * Z :=
  let dlen := zlen (cstr (ztake siz dst)) in
  let n := siz - dlen in
  if n =? 0 then (dst, dlen + zlen src)
  else let w := strlcat_loop n src in
       (ztake dlen dst ++ w ++ zdrop (dlen + zlen w) dst, dlen + zlen src).
