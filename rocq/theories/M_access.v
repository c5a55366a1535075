(** Model of the list parsing and list matching of server/access.c.
    Linked lists are modelled as Coq lists in list order; a NULL list is [].
    Memory allocation is assumed to succeed (the code exits otherwise). *)
From Verif Require Import Bytes M_util M_message.
From Coq Require Import Init.Byte List ZArith Bool.
Import ListNotations.
Open Scope Z_scope.

(** server/access.h:33-41 and the line length limit MAX_LINE_LEN (fwknop_common.h) *)
Definition ACCESS_BUF_LEN : Z := 33.
Definition MAX_LINE_LEN : Z := 1024.
Definition PROTO_TCP : Z := 6.
Definition PROTO_UDP : Z := 17.

(** strcasecmp(a, b) == 0 in the C locale *)
Definition strcaseeq (a b : bytes) : bool := bseq (map tolower a) (map tolower b).

(** acc_int_list_t, server/fwknopd_common.h: (maddr, mask), host byte order *)
Record net := mknet { net_maddr : Z; net_mask : Z }.

(** access.c:382-445: the mask part of an entry; (mask, need_shift) or an error *)
Definition parse_mask (m : bytes) : option (Z * bool) :=
  let mask_len := zlen m in
  if mask_len >? 2 then
    if (mask_len >=? MIN_IPV4_STR_LEN) && (mask_len <? MAX_IPV4_STR_LEN) then
      match inet_aton m with
      | Some v => Some (v, false)
      | None => None
      end
    else None
  else if mask_len >? 0 then
    match strtol_wrapper m 1 32 with
    | (v, STRTOL_OK) => Some (u32 v, true)
    | _ => None
    end
  else None.

(** access.c:374-459: the address and the mask of an entry other than ANY *)
Definition split_entry (ip : bytes) : option (bytes * (Z * bool)) :=
  match index_of "/"%byte ip with
  | Some k =>
      let n := Z.of_nat k in
      if n >=? MAX_IPV4_STR_LEN then None
      else match parse_mask (zdrop (n + 1) ip) with
           | Some m => Some (ztake n ip, m)
           | None => None
           end
  | None =>
      if strnlen ip (MAX_IPV4_STR_LEN + 1) >=? MAX_IPV4_STR_LEN then None
      else Some (ip, (32, true))
  end.

(** access.c:473-480: conversion of a CIDR length to a 32 bit mask *)
Definition final_mask (m : Z * bool) : Z :=
  let '(mask, need_shift) := m in
  if mask =? 32 then 4294967295
  else if need_shift && ((mask >? 0) && (mask <? 32)) then u32 (Z.shiftl 4294967295 (32 - mask))
  else mask.

(** add_int_ent, access.c:348-506: the entry that is appended; None = return 0 *)
Definition add_int_ent (ip : bytes) : option net :=
  if strcaseeq ip ($ "ANY") then Some (mknet 0 0)
  else match split_entry ip with
       | None => None
       | Some (ip_str, m) =>
           match inet_aton ip_str with
           | None => None
           | Some a => Some (mknet (Z.land a (final_mask m)) (final_mask m))
           end
       end.

(** parse_proto_and_port, access.c:556-603; None = -1 *)
Definition parse_proto_and_port (p : bytes) : option (Z * Z) :=
  match index_of "/"%byte p with
  | None => None
  | Some k =>
      let n := Z.of_nat k in
      if n + 1 >=? ACCESS_BUF_LEN then None
      else
        match strtol_wrapper (zdrop (n + 1) p) 0 MAX_PORT with
        | (port, STRTOL_OK) =>
            let proto := ztake n p in
            if strcaseeq proto ($ "tcp") then Some (PROTO_TCP, port)
            else if strcaseeq proto ($ "udp") then Some (PROTO_UDP, port)
            else None
        | _ => None
        end
  end.

(** add_port_list_ent, access.c:608-651: the (proto, port) appended; None = return 0 *)
Definition add_port_list_ent (p : bytes) : option (Z * Z) := parse_proto_and_port p.

(** add_string_list_ent, access.c:655-698: the string appended *)
Definition add_string_list_ent (s : bytes) : option bytes := Some s.

(** The loop shared by expand_acc_int_list (access.c:510-554), expand_acc_port_list
    (access.c:703-746) and expand_acc_string_list (access.c:750-792).
    [s] is the text from ndx on, [cur] the text between start and ndx, [l] the list so far. *)
Fixpoint expand_list {A} (lim : Z) (add : bytes -> option A) (s cur : bytes) (l : list A)
  : option (list A) :=
  match s with
  | [] =>
      let it := skip_space cur in
      if zlen it + 1 >=? lim then None
      else match add it with Some e => Some (l ++ [e]) | None => None end
  | c :: s' =>
      if beq c ","%byte then
        let it := skip_space cur in
        if zlen it + 1 >=? lim then None
        else match add it with
             | Some e => expand_list lim add s' [] (l ++ [e])
             | None => None
             end
      else expand_list lim add s' (cur ++ [c]) l
  end.

(** expand_acc_int_list, access.c:510-554; None = return 0 *)
Definition expand_acc_int_list (s : bytes) : option (list net) :=
  expand_list ACCESS_BUF_LEN add_int_ent s [] [].

(** expand_acc_port_list, access.c:703-746 *)
Definition expand_acc_port_list (s : bytes) : option (list (Z * Z)) :=
  expand_list ACCESS_BUF_LEN add_port_list_ent s [] [].

(** expand_acc_string_list, access.c:750-792 *)
Definition expand_acc_string_list (s : bytes) : option (list bytes) :=
  expand_list MAX_LINE_LEN add_string_list_ent s [] [].

(** compare_addr_list, access.c:2045-2062 *)
Fixpoint compare_addr_list (l : list net) (ip : Z) : bool :=
  match l with
  | [] => false
  | e :: r =>
      if Z.land ip (net_mask e) =? Z.land (net_maddr e) (net_mask e) then true
      else compare_addr_list r ip
  end.

(** Same protocol and same port, access.c:2093 *)
Definition same_port (a b : Z * Z) : bool := (fst a =? fst b) && (snd a =? snd b).

(** compare_port_list with match_any = 1, access.c:2079-2105: the first match returns 1,
    otherwise i_cnt == a_cnt with a_cnt = 0 *)
Definition compare_port_list_any (inl ac : list (Z * Z)) : bool :=
  if existsb (fun p => existsb (same_port p) ac) inl then true
  else zlen inl =? 0.

(** compare_port_list with match_any = 0, access.c:2079-2105: counts all matches *)
Fixpoint count_matches (inl ac : list (Z * Z)) : Z :=
  match inl with
  | [] => 0
  | p :: r => zlen (filter (same_port p) ac) + count_matches r ac
  end.
Definition compare_port_list_all (inl ac : list (Z * Z)) : bool :=
  zlen inl =? count_matches inl ac.

(** The splitting loop of acc_check_port_access, access.c:2128-2179: no white space is
    skipped and the counter ctr is tested as well. *)
Fixpoint split_request (s cur : bytes) (ctr : Z) (l : list (Z * Z)) : option (list (Z * Z)) :=
  match s with
  | [] =>
      if (ctr >=? ACCESS_BUF_LEN) || (zlen cur + 1 >=? ACCESS_BUF_LEN) then None
      else match add_port_list_ent cur with Some e => Some (l ++ [e]) | None => None end
  | c :: s' =>
      if beq c ","%byte then
        if (ctr >=? ACCESS_BUF_LEN) || (zlen cur + 1 >=? ACCESS_BUF_LEN) then None
        else match add_port_list_ent cur with
             | Some e => split_request s' [] 1 (l ++ [e])
             | None => None
             end
      else split_request s' (cur ++ [c]) (ctr + 1) l
  end.

(** acc_check_port_access, access.c:2112-2200.  [open] is oport_list, [restricted] is
    rport_list. *)
Definition acc_check_port_access (open restricted : list (Z * Z)) (port_str : bytes) : bool :=
  match split_request port_str [] 0 [] with
  | None => false
  | Some in_pl =>
      if negb (zlen restricted =? 0) && compare_port_list_any in_pl restricted then false
      else if negb (zlen open =? 0) && negb (compare_port_list_all in_pl open) then false
      else true
  end.
