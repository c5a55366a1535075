(** What the options of the client ask for, written without reference to its code.  Of the
    model only the records of options and of the answers of the system are used. *)
From Verif Require Import Bytes M_util M_codec M_cipher M_ctx M_client S_base64 S_text S_codec S_cipher S_ctx S_conf S_cycle.
From Coq Require Import Init.Byte List ZArith Bool.
Import ListNotations.
Open Scope Z_scope.

(** Texts that are C strings and fit their arrays; numbers as they come from the parser of
    the options. *)
Definition server_name (s : bytes) : Prop := no_nul s /\ zlen s <= 49 /\ s <> [] /\ letter_or_digit (hd x00 s).
Record options_ok (o : options) : Prop := {
  ok_server : server_name (o_server o);
  ok_ip : no_nul (o_ip o) /\ ~ In ","%byte (o_ip o) /\ zlen (o_ip o) <= 15;
  ok_access : no_nul (o_access o) /\ zlen (o_access o) <= 1023;
  ok_command : no_nul (o_command o) /\ zlen (o_command o) <= 1023;
  ok_nat : no_nul (o_nat_access o) /\ zlen (o_nat_access o) <= 1023;
  ok_port : 0 <= o_nat_port o <= 65535;
  ok_timeout : -1 <= o_timeout o <= 131072;
  ok_offset : 0 <= o_plus o < 2147483648 /\ 0 <= o_minus o < 2147483648;
  ok_user : no_nul (o_user o) /\ zlen (o_user o) <= 29;
  ok_key : match o_key o with KText k => zlen k <= 128 | _ => True end;
  ok_hmac : match o_hmac o with Some (KText k) => zlen k <= 128 | _ => True end }.
(** The numbers of rand(), and a login name that is a C string. *)
Record world_ok (v : world) : Prop := {
  wo_rand : forall i j, 0 <= v_rand v i j < 2147483648;
  wo_now : 0 <= v_now v;
  wo_salt : zlen (v_salt v) = 8 }.

(** ** The message *)

(** 0 command, 1 access, 2 NAT, 5 local NAT, and with a positive timeout 3, 4 and 6. *)
Definition type_wanted (o : options) : Z :=
  match o_command o with
  | _ :: _ => 0
  | [] => if o_nat_local o then if 0 <? o_timeout o then 6 else 5
          else match o_nat_access o with
               | _ :: _ => if 0 <? o_timeout o then 4 else 2
               | [] => if 0 <? o_timeout o then 3 else 1
               end
  end.
(** The access text of the message: the one given, but with another port in its only entry if
    a port for the translation is given or to be random. *)
Inductive port_choice (o : options) : option Z -> Prop :=
| pc_random n : o_nat_rand o = true -> 10000 <= n <= 65534 -> port_choice o (Some n)
| pc_given : o_nat_rand o = false -> o_nat_port o <> 0 -> port_choice o (Some (o_nat_port o))
| pc_none : o_nat_rand o = false -> o_nat_port o = 0 -> port_choice o None.
Definition access_wanted (o : options) (t : bytes) : Prop :=
  exists c, port_choice o c /\
  match c with
  | None => t = o_access o
  | Some n => exists proto port ds, o_access o = proto ++ ["/"%byte] ++ port /\ ~ In "/"%byte (proto ++ port) /\
                writes ds n /\ t = proto ++ ["/"%byte] ++ ds
  end.
(** The port of the first entry of the access text. *)
Definition first_port (access : bytes) (p : Z) : Prop :=
  exists a ds r, access = a ++ ["/"%byte] ++ ds ++ r /\ ~ In "/"%byte a /\ all_digits ds /\ 1 <= zlen ds <= 5 /\
    (r = [] \/ ~ digit (hd x00 r) \/ zlen ds = 5) /\ decimal ds = p /\ 1 <= p <= 65535.
(** Where the connection is to go: the host and the port given, if no port is given that of
    the access text, and if no host is given to the server. *)
Definition nat_wanted (o : options) (t : bytes) : Prop :=
  exists host p ds, t = host ++ [","%byte] ++ ds /\ writes ds p /\
  ((o_nat_access o = [] /\ host = o_server o /\ first_port (o_access o) p) \/
   (o_nat_access o <> [] /\ ~ In ":"%byte host /\ ~ In ","%byte host /\
    ((o_nat_access o = host /\ first_port (o_access o) p) \/
     exists sep s, (sep = ":"%byte \/ sep = ","%byte) /\ o_nat_access o = host ++ [sep] ++ s /\
       all_digits s /\ decimal s = p /\ 1 <= p <= 65535))).
Definition nat_asked (o : options) : Prop := o_nat_local o = true \/ o_nat_access o <> [].
(** The name of the user who runs the client. *)
Definition user_wanted (v : world) (o : options) (u : bytes) : Prop :=
  (o_user o <> [] /\ u = o_user o) \/ (o_user o = [] /\ u = ztake 63 (login_name (v_login v))).
(** The time, with its offset; of two offsets the one back counts. *)
Definition time_wanted (v : world) (o : options) (t : Z) : Prop :=
  (o_minus o > 0 /\ t = v_now v - o_minus o) \/ (o_minus o = 0 /\ t = v_now v + o_plus o).
Record wants (v : world) (o : options) (m : spa) : Prop := {
  wn_rand : all_digits (s_rand m) /\ zlen (s_rand m) = 16;
  wn_user : user_wanted v o (s_user m);
  wn_time : time_wanted v o (s_time m);
  wn_version : s_version m = $ "3.0.0";
  wn_type : s_type m = type_wanted o;
  wn_msg : exists t, s_msg m = o_ip o ++ [","%byte] ++ t /\ (o_command o <> [] -> t = o_command o) /\
           (o_command o = [] -> access_wanted o t);
  wn_nat : match s_nat m with Some n => nat_asked o /\ nat_wanted o n | None => ~ nat_asked o end;
  wn_auth : s_auth m = None;
  wn_timeout : s_timeout m = if (0 <? o_timeout o) && match o_command o with [] => true | _ => false end then o_timeout o else 0 }.

(** The length of the text that is encrypted: random digits, user name, time, version, type
    and message, the address for the translation and the timeout if there are any, and a
    digest, separated by colons; user name, message and address in base64 without padding. *)
Definition b64_size (n : Z) : Z := (4 * n + 2) / 3.
Definition hash_size (t : Z) : Z := nth (Z.to_nat t) [0; 16; 20; 32; 48; 64; 32; 64] 0.
Definition plain_length (dt : Z) (m : spa) (n : Z) : Prop :=
  exists t ti, writes t (s_time m) /\ writes ti (s_timeout m) /\
    n = zlen (s_rand m) + 1 + b64_size (zlen (s_user m)) + 1 + zlen t + 1 + zlen (s_version m) + 3 + b64_size (zlen (s_msg m)) +
        match s_nat m with Some x => 1 + b64_size (zlen x) | None => 0 end +
        (if 0 <? s_timeout m then 1 + zlen ti else 0) + 1 + b64_size (hash_size dt).
(** What a server can take: see [sendable]; there is room for 271 characters. *)
Definition fits (dt : Z) (m : spa) : Prop :=
  zlen (s_user m) <= 48 /\ s_time m < 2147483648 /\ zlen (s_msg m) <= 192 /\ s_timeout m <= 65536 /\
  forall n, plain_length dt m n -> n <= 271.

(** The port that is computed from random digits. *)
Definition port_of (r : bytes) : Z := 10000 + decimal (ztake 5 r) mod 55535.

(** ** Keys *)

(** What stands on the terminal after the characters [s]: 8 deletes a character, 21 all of
    them; there is room for 127. *)
Definition plain_char (c : byte) : Prop := ~ In (bv c) [3; 8; 10; 21].
Inductive edits : bytes -> bytes -> Prop :=
| ed_none : edits [] []
| ed_char s t c : edits s t -> plain_char c -> zlen t < 127 -> edits (s ++ [c]) (t ++ [c])
| ed_full s t c : edits s t -> plain_char c -> zlen t = 127 -> edits (s ++ [c]) t
| ed_back s t c : edits s (t ++ [c]) -> edits (s ++ [x08]) t
| ed_back_none s : edits s [] -> edits (s ++ [x08]) []
| ed_kill s t : edits s t -> edits (s ++ [x15]) [].
(** The password in the input [i]: the first line of it. *)
Definition entered (i pw : bytes) : Prop :=
  exists s rest, i = s ++ rest /\ (rest = [] \/ exists r, rest = x0a :: r) /\ edits s pw.

(** A line of a key file that gives the key [k] for a server. *)
Definition separator (c : byte) : Prop := c = " "%byte \/ c = x09 \/ c = "="%byte.
Definition key_entry (server line k : bytes) : Prop :=
  exists s1 s2, line = s1 ++ server ++ [":"%byte] ++ s2 ++ k /\ Forall separator s1 /\ Forall separator s2 /\
    (k = [] \/ ~ separator (hd x00 k)).
(** The key file: of several entries for the server the last one counts. *)
Definition file_key (server : bytes) (lines : list bytes) (k : bytes) : Prop :=
  exists pre l post, lines = pre ++ l :: post /\ key_entry server l k /\
    forall l' k', In l' post -> ~ key_entry server l' k'.

(** The key that a source gives. *)
Definition key_from (server : bytes) (s : key_source) (k : bytes) : Prop :=
  match s with
  | KText t => k = t
  | KBase64 t => forall b, t = rfc4648 b \/ t = b64_text b -> k = b
  | KFile f => exists text, f = Some text /\ forall lines, text = file lines -> Forall line_ok lines -> file_key server lines k
  | KPrompt i => exists s, i = Some s /\ (no_nul s -> (forall a r, s = a ++ x03 :: r -> In x0a a) -> entered s k)
  end.
(** In the mode for old servers at most 16 characters of the key are used. *)
Definition key_used (mode : Z) (k k' : bytes) : Prop := k' = if mode =? 8 then ztake 16 k else k.
(** Settings of the encryption; 0 stands for the default. *)
Definition or_default (n d : Z) : Z := if n =? 0 then d else n.
(** The HMAC key, which is another key than that of the encryption. *)
Definition hmac_from (o : options) (k : bytes) (hk : option bytes) : Prop :=
  match o_hmac o with
  | None => hk = None
  | Some s => exists x, hk = Some x /\ key_from (o_server o) s x /\ x <> k
  end.
(** The HMAC key is not empty, and the type of the HMAC is one of the known ones. *)
Definition hmac_usable (o : options) : Prop :=
  forall s x, o_hmac o = Some s -> key_from (o_server o) s x -> x <> [] /\ 1 <= o_hmac_type o <= 7.
