(** Model of lib/fko_message.c (validators), lib/fko_user.c (validation).
    The validators' different error codes are not distinguished: [true] is FKO_SUCCESS. *)
From Verif Require Import Bytes M_util.
From Coq Require Import Init.Byte List ZArith Bool.
Import ListNotations.
Open Scope Z_scope.

(** lib/fko_limits.h:37-70, common/fko_util.h:37. *)
Definition MAX_SPA_CMD_LEN : Z := 1400.
Definition MAX_SPA_USERNAME_SIZE : Z := 64.
Definition MAX_SPA_MESSAGE_SIZE : Z := 256.
Definition MAX_SPA_NAT_ACCESS_SIZE : Z := 128.
Definition MAX_SPA_SERVER_AUTH_SIZE : Z := 64.
Definition MAX_SPA_TIMESTAMP_SIZE : Z := 12.
Definition MAX_SPA_VERSION_SIZE : Z := 8.
Definition MAX_SPA_MESSAGE_TYPE_SIZE : Z := 2.
Definition MAX_PROTO_STR_LEN : Z := 4.
Definition MAX_PORT_STR_LEN : Z := 5.
Definition MAX_PORT : Z := 65535.
Definition MAX_HOSTNAME_LEN : Z := 70.

(** [strnlen] on a C string. *)
Definition strnlen (s : bytes) (n : Z) : Z := Z.min (zlen s) n.

(** [strchr(s, c)]: the suffix starting at the first [c], if any. *)
Fixpoint strchr (c : byte) (s : bytes) : option bytes :=
  match s with
  | [] => None
  | x :: r => if beq x c then Some s else strchr c r
  end.

(** [strncmp(s, p, strlen p) == 0] *)
Definition starts_with (p s : bytes) : bool := is_prefix p s.

(** lib/fko_message.c:42-64: characters up to the first ',' or the end, all digits or
    dots, fewer than MAX_IPV4_STR_LEN of them. *)
Fixpoint allow_ip_scan (s : bytes) (acc : bytes) : option bytes :=
  match s with
  | [] => Some acc
  | c :: r =>
      if beq c ","%byte then Some acc
      else let acc' := acc ++ [c] in
           if zlen acc' >=? MAX_IPV4_STR_LEN then None
           else if beq c "."%byte || isdigit c then allow_ip_scan r acc' else None
  end.

(** lib/fko_message.c:34-71, [have_allow_ip]. *)
Definition have_allow_ip (msg : bytes) : bool :=
  match allow_ip_scan msg [] with
  | Some ip => is_valid_ipv4_addr ip (zlen ip)
  | None => false
  end.

(** lib/fko_message.c:89-97: the port digits up to ',' or the end. *)
Fixpoint port_scan (s : bytes) (acc : bytes) : option bytes :=
  match s with
  | [] => Some acc
  | c :: r =>
      if beq c ","%byte then Some acc
      else if negb (isdigit c) || (zlen acc + 1 >? MAX_PORT_STR_LEN) then None
      else port_scan r (acc ++ [c])
  end.

(** lib/fko_message.c:73-105, [have_port]. *)
Definition have_port (msg : bytes) : bool :=
  if strnlen msg MAX_SPA_MESSAGE_SIZE =? MAX_SPA_MESSAGE_SIZE then false
  else match msg with
       | [] => false
       | c :: _ =>
           if negb (isdigit c) then false
           else match port_scan msg [] with
                | None => false
                | Some p => strtol_ok (snd (strtol_wrapper p 1 MAX_PORT))
                end
       end.

(** lib/fko_message.c:241-265, [validate_cmd_msg]. *)
Definition validate_cmd_msg (msg : bytes) : bool :=
  let startlen := strnlen msg MAX_SPA_CMD_LEN in
  if startlen =? MAX_SPA_CMD_LEN then false
  else if negb (have_allow_ip msg) then false
  else match index_of ","%byte msg with
       | None => false
       | Some i => negb (1 + Z.of_nat i >=? startlen)
       end.

(** lib/fko_message.c:346-372, [validate_proto_port_spec]. *)
Definition validate_proto_port_spec (msg : bytes) : bool :=
  if strnlen msg MAX_SPA_MESSAGE_SIZE =? MAX_SPA_MESSAGE_SIZE then false
  else if negb (starts_with ($ "tcp") msg) && negb (starts_with ($ "udp") msg)
          && negb (starts_with ($ "icmp") msg) && negb (starts_with ($ "none") msg) then false
  else match index_of "/"%byte msg with
       | None => false
       | Some i => if 1 + Z.of_nat i >? MAX_PROTO_STR_LEN then false
                   else have_port (skipn (S i) msg)
       end.

(** lib/fko_message.c:291-296, the do/while over comma separated items.  [s] is the text
    after a comma.  The fuel is the length of the message, one unit per item. *)
Fixpoint access_items (fuel : nat) (s : bytes) : bool :=
  match fuel with
  | O => false
  | S f =>
      if validate_proto_port_spec s then
        match strchr ","%byte s with
        | None => true
        | Some rest => access_items f (tl rest)
        end
      else false
  end.

(** lib/fko_message.c:267-299, [validate_access_msg]. *)
Definition validate_access_msg (msg : bytes) : bool :=
  let startlen := strnlen msg MAX_SPA_MESSAGE_SIZE in
  if startlen =? MAX_SPA_MESSAGE_SIZE then false
  else if negb (have_allow_ip msg) then false
  else match index_of ","%byte msg with
       | None => false
       | Some i => if 1 + Z.of_nat i >=? startlen then false
                   else access_items (length msg) (skipn (S i) msg)
       end.

(** common/fko_util.c:1155-1165, [count_characters] (the list holds no NUL). *)
Definition count_characters (s : bytes) (c : byte) (len : Z) : Z :=
  zlen (filter (beq c) (ztake len s)).

(** [strcspn] *)
Fixpoint strcspn (s : bytes) (set : bytes) : Z :=
  match s with
  | [] => 0
  | c :: r => if memb c set then 0 else 1 + strcspn r set
  end.

(** lib/fko_message.c:325: the characters refused in a NAT host: blank, slash, question
    mark, double quote, single quote, backslash. *)
Definition nat_bad_chars : bytes := [x20; x2f; x3f; x22; x27; x5c].

(** lib/fko_message.c:301-344, [validate_nat_access_msg]. *)
Definition validate_nat_access_msg (msg : bytes) : bool :=
  let startlen := strnlen msg MAX_SPA_MESSAGE_SIZE in
  if startlen =? MAX_SPA_MESSAGE_SIZE then false
  else if negb (count_characters msg ","%byte startlen =? 1) then false
  else let host_len := strcspn msg [","%byte] in
  if host_len >? MAX_HOSTNAME_LEN then false
  else if strcspn msg nat_bad_chars <? host_len then false
  else match index_of ","%byte msg with
       | None => false
       | Some i =>
           if 1 + Z.of_nat i >=? startlen then false
           else if negb (have_port (skipn (S i) msg)) then false
           else negb (beq (nth (Z.to_nat (startlen - 1)) msg x00) ","%byte)
       end.

(** lib/fko_user.c:178-196: may this character occur in a username?  [char] is signed,
    so bytes above 0x7f are < 0x20. *)
Definition username_char_ok (c : byte) : bool :=
  isalnum c ||
  negb ((bsv c <? 0x20) || (bsv c >? 0x7e)
        || memb c [x22; x2f; x5c; x5b; x5d; x3a; x3b; x7c; x3d; x2c; x2b; x2a; x3f; x3c; x3e]).

(** lib/fko_user.c:164-210, [validate_username]: only the first 64 characters are
    looked at. *)
Definition validate_username (u : bytes) : bool :=
  negb (strnlen u MAX_SPA_USERNAME_SIZE =? 0)
  && forallb username_char_ok (ztake MAX_SPA_USERNAME_SIZE u).

(** lib/fko_user.c:103-106: truncation in [fko_set_username]. *)
Definition truncate_username (u : bytes) : bytes :=
  if strnlen u MAX_SPA_USERNAME_SIZE =? MAX_SPA_USERNAME_SIZE
  then ztake (MAX_SPA_USERNAME_SIZE - 1) u else u.
