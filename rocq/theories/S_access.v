(** Specification of access lists: comma separated lists, IPv4 networks, protocol/port
    entries.  Written without reference to the model. *)
From Verif Require Import Bytes S_text.
From Coq Require Import Init.Byte List ZArith Bool.
Import ListNotations.
Open Scope Z_scope.

(** The text is the items separated by commas, each item preceded by any amount of white
    space.  (Text is free of NUL, so the head of an empty item is not a blank.) *)
Definition listed (s : bytes) (items : list bytes) : Prop :=
  exists raws,
    s = join [","%byte] raws /\ raws <> [] /\
    Forall (fun r => ~ In ","%byte r) raws /\
    Forall2 (fun raw it => exists sp, raw = sp ++ it /\ Forall blank sp /\ ~ blank (hd x00 it))
            raws items.

(** The text is the items separated by commas, nothing else. *)
Definition comma_separated (s : bytes) (items : list bytes) : Prop :=
  s = join [","%byte] items /\ items <> [] /\ Forall (fun r => ~ In ","%byte r) items.

Definition lower (s : bytes) : bytes :=
  map (fun c => if (65 <=? bv c) && (bv c <=? 90) then zb (bv c + 32) else c) s.

Definition addr (a b c d : Z) : Z := a * 16777216 + b * 65536 + c * 256 + d.

(** What an address entry of an access list means: the set of addresses it covers. *)
Inductive net_entry : bytes -> (Z -> Prop) -> Prop :=
| NetAny it : lower it = $ "any" -> net_entry it (fun _ => True)
| NetHost it a b c d : ipv4_text it a b c d -> zlen it <= 15 ->
    net_entry it (fun x => x = addr a b c d)
| NetCidr ip a b c d ds : ipv4_text ip a b c d -> zlen ip <= 15 ->
    1 <= zlen ds <= 2 -> all_digits ds -> 1 <= decimal ds <= 32 ->
    net_entry (ip ++ ["/"%byte] ++ ds)
      (fun x => x / 2 ^ (32 - decimal ds) = addr a b c d / 2 ^ (32 - decimal ds))
| NetMask ip a b c d m e f g h : ipv4_text ip a b c d -> zlen ip <= 15 ->
    ipv4_text m e f g h -> zlen m <= 15 ->
    net_entry (ip ++ ["/"%byte] ++ m)
      (fun x => forall i, Z.testbit (addr e f g h) i = true ->
                Z.testbit x i = Z.testbit (addr a b c d) i).

(** A protocol/port entry: tcp or udp in any case, a slash, a number. *)
Definition port_entry (it : bytes) (proto port : Z) : Prop :=
  exists p ds, it = p ++ ["/"%byte] ++ ds /\ zlen p <= 31 /\
    ((lower p = $ "tcp" /\ proto = 6) \/ (lower p = $ "udp" /\ proto = 17)) /\
    integer_text ds port /\ 0 <= port <= 65535.

(** No number in the request is too large for an int. *)
Definition small_numbers (s : bytes) : Prop :=
  forall a ds b n, s = a ++ ["/"%byte] ++ ds ++ b -> integer_text ds n -> -2147483648 <= n < 2147483648.

(** Addresses 32 bits wide. *)
Definition addr32 (x : Z) : Prop := 0 <= x < 4294967296.

(** The dotted mask 0.0.0.32, which the program mistakes for a prefix length. *)
Definition odd_mask (it : bytes) : Prop :=
  exists ip m, it = ip ++ ["/"%byte] ++ m /\ ~ In "/"%byte ip /\ ipv4_text m 0 0 0 32.
