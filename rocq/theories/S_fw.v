(** What iptables does, as far as the daemon uses it, and the vocabulary of the firewall
    properties.  Only the data types of the model are used here, and at the
    end its round of checks, of which [rounds] makes histories. *)
From Verif Require Import Bytes S_text S_access S_incoming M_util M_packet M_incoming M_cycle M_fw.
From Coq Require Import Init.Byte List ZArith Bool.
Import ListNotations.
Open Scope Z_scope.

(** A rule is the list of its arguments; a firewall has, by table and chain, the rules of the
    chains that exist. *)
Definition rule := list bytes.
Definition firewall := bytes -> bytes -> option (list rule).

(** What depends on the iptables version: which rules it accepts, how it shows a rule, the
    heading of a listing, how it writes numbers, its error message, and which chains of a
    firewall it takes to be in use and does not remove. *)
Record iptables := mkIpt {
  legal : rule -> bool; show : rule -> bytes; heading : bytes -> bytes; number : Z -> bytes; trouble : bytes;
  referenced : firewall -> bytes -> bytes -> bool }.

Definition put_chain (fw : firewall) (t c : bytes) (rs : option (list rule)) : firewall :=
  fun t' c' => if bseq t' t && bseq c' c then rs else fw t' c'.

(** A listing: the heading, then the rules, one per line, numbered from [k] on *)
Fixpoint rule_lines (K : iptables) (k : Z) (rs : list rule) : bytes :=
  match rs with
  | [] => []
  | r :: rest => number K k ++ [" "%byte] ++ show K r ++ [x0a] ++ rule_lines K (k + 1) rest
  end.
Definition listing (K : iptables) (c : bytes) (rs : list rule) : bytes := heading K c ++ rule_lines K 1 rs.

Definition same_rule (a b : rule) : bool := if list_eq_dec (list_eq_dec Byte.byte_eq_dec) a b then true else false.
Fixpoint remove_nth (n : nat) (rs : list rule) : list rule :=
  match rs, n with
  | [], _ => []
  | _ :: r, O => r
  | x :: r, S k => x :: remove_nth k r
  end.
Fixpoint remove_first (x : rule) (rs : list rule) : option (list rule) :=
  match rs with
  | [] => None
  | y :: r => if same_rule x y then Some r
              else match remove_first x r with Some r' => Some (y :: r') | None => None end
  end.

(** iptables -t TABLE OPERATION CHAIN ARGUMENTS: the firewall afterwards and the output *)
Definition ipt_table (K : iptables) (fw : firewall) (t op c : bytes) (args : list bytes) : firewall * bytes :=
  let failed := (fw, trouble K) in
  match fw t c with
  | None => if bseq op ($ "-N") then (put_chain fw t c (Some []), []) else failed
  | Some rs =>
      if bseq op ($ "-L") then (fw, listing K c rs)
      else if bseq op ($ "-F") then (put_chain fw t c (Some []), [])
      else if bseq op ($ "-X") then match rs with [] => if referenced K fw t c then failed else (put_chain fw t c None, []) | _ => failed end
      else if bseq op ($ "-D") then
        match args with
        | [n] => let n := decimal n in
                 if (1 <=? n) && (n <=? zlen rs)
                 then (put_chain fw t c (Some (remove_nth (Z.to_nat (n - 1)) rs)), []) else failed
        | _ => match remove_first args rs with
               | Some rs' => (put_chain fw t c (Some rs'), [])
               | None => failed
               end
        end
      else if bseq op ($ "-I") then
        match args with
        | n :: r => let n := decimal n in
                    if legal K r && (1 <=? n) && (n <=? zlen rs + 1)
                    then (put_chain fw t c (Some (ztake (n - 1) rs ++ r :: zdrop (n - 1) rs)), []) else failed
        | [] => failed
        end
      else if bseq op ($ "-C") then if existsb (same_rule args) rs then (fw, []) else failed
      else failed
  end.
(** iptables OPERATION CHAIN -t TABLE ARGUMENTS *)
Definition ipt_chain (K : iptables) (fw : firewall) (op c t : bytes) (r : rule) : firewall * bytes :=
  let failed := (fw, trouble K) in
  match fw t c with
  | None => failed
  | Some rs =>
      if bseq op ($ "-C") then if existsb (same_rule r) rs then (fw, []) else failed
      else if bseq op ($ "-A") then if legal K r then (put_chain fw t c (Some (rs ++ [r])), []) else failed
      else if bseq op ($ "-I") then if legal K r then (put_chain fw t c (Some (r :: rs)), []) else failed
      else failed
  end.
Definition ipt (K : iptables) (fw : firewall) (argv : list bytes) : firewall * bytes :=
  match argv with
  | _ :: a :: b :: c :: d :: r =>
      if bseq a ($ "-t") then ipt_table K fw b c d r
      else if bseq c ($ "-t") then ipt_chain K fw a b d r
      else (fw, trouble K)
  | _ => (fw, trouble K)
  end.

(** What may happen when iptables is run: it does its work; it exits with an error having done
    nothing; it is killed before or after its work; it cannot be started. *)
Inductive fate := Runs | Refuses | DiesBefore | DiesAfter | NoStart.
(** A machine: the firewall and the fates of the next runs, all those after these being Runs *)
Definition machine : Type := firewall * list fate.
Definition run_iptables (K : iptables) (m : machine) (argv : list bytes) : machine * ended * bytes :=
  let '(fw, fs) := m in
  let '(fw', out) := ipt K fw argv in
  match hd Runs fs with
  | Runs => ((fw', tl fs), Exited, out)
  | Refuses => ((fw, tl fs), Exited, trouble K)
  | DiesBefore => ((fw, tl fs), Killed, [])
  | DiesAfter => ((fw', tl fs), Killed, out)
  | NoStart => ((fw, tl fs), NotStarted, [])
  end.

(** ** Text *)

(** [n] in decimal without superfluous zeros *)
Definition numeral (n : Z) (s : bytes) : Prop :=
  s <> [] /\ all_digits s /\ decimal s = n /\ (hd x00 s = "0"%byte -> s = ["0"%byte]).

Definition mark : bytes := $ "_exp_".
Definition unmarked (x : bytes) : Prop := forall a b, x <> a ++ mark ++ b.
(** [x] contains the mark once, as in the comment that iptables shows as an asterisked one *)
Definition expires_at (x : bytes) (e : Z) : Prop :=
  exists pre ds post,
    x = pre ++ mark ++ ds ++ $ " */" ++ post /\ (forall a b, x = a ++ mark ++ b -> a = pre) /\
    ds <> [] /\ all_digits ds /\ zlen ds <= 11 /\ e = decimal ds.
(** How a rule is shown: on one line; with its expiry, or without any *)
Definition readable (x : bytes) : Prop :=
  ~ In x0a x /\ ~ In x00 x /\ (unmarked x \/ exists e, expires_at x e).

(** A word of a command line *)
Definition word (s : bytes) : Prop := s <> [] /\ Forall (fun c => ~ blank c /\ c <> x00) s.

(** What is assumed of iptables *)
Definition iptables_ok (K : iptables) : Prop :=
  (forall k, 0 <= k -> numeral k (number K k)) /\
  (forall c, word c -> unmarked c -> exists h, heading K c = h ++ [x0a] /\ h <> [] /\ ~ In x00 h /\ unmarked (heading K c)) /\
  (exists m, trouble K = m ++ [x0a] /\ m <> [] /\ ~ In x00 m).

(** [without P l l']: [l'] is [l] without the elements that satisfy [P] *)
Inductive without {A} (P : A -> Prop) : list A -> list A -> Prop :=
| without_nil : without P [] []
| without_drop x l l' : P x -> without P l l' -> without P (x :: l) l'
| without_keep x l l' : ~ P x -> without P l l' -> without P (x :: l) (x :: l').
Definition expired (K : iptables) (now : Z) (r : rule) : Prop := exists e, expires_at (show K r) e /\ e <= now.

(** The names of a chain configuration and the commands made of them fit the buffers *)
Definition names_fit (exe : bytes) (c : chain) : Prop :=
  word exe /\ word (c_table c) /\ word (c_from c) /\ word (c_to c) /\ word (c_target c) /\
  1 <= c_jump c <= 65536 /\ unmarked (c_to c) /\
  zlen exe + zlen (c_table c) + zlen (c_from c) + zlen (c_to c) + zlen (c_target c) <= 100.

(** Nothing but chain [c] of table [t] differs *)
Definition elsewhere (t c : bytes) (fw fw' : firewall) : Prop :=
  forall t' c', ~ (t' = t /\ c' = c) -> fw' t' c' = fw t' c'.
(** [only_drops P l l']: [l'] is [l] without some of the elements that satisfy [P] *)
Inductive only_drops {A} (P : A -> Prop) : list A -> list A -> Prop :=
| drops_nil : only_drops P [] []
| drops_drop x l l' : P x -> only_drops P l l' -> only_drops P (x :: l) l'
| drops_keep x l l' : only_drops P l l' -> only_drops P (x :: l) (x :: l').

(** Chain configurations that differ in the counters only *)
Definition same_names (c c' : chain) : Prop :=
  c_target c' = c_target c /\ c_table c' = c_table c /\ c_from c' = c_from c /\ c_jump c' = c_jump c /\ c_to c' = c_to c.

(** A chain of the configuration (number [i]) whose rules the daemon is able to go through: it
    is not in use; or it exists, its name has more than [i] characters, and the listing fits
    into the buffer *)
Definition checkable (K : iptables) (exe : bytes) (fw : firewall) (i : nat) (c : chain) : Prop :=
  c_table c = [] \/
  (names_fit exe c /\ Z.of_nat i < zlen (c_to c) /\
   exists rs, fw (c_table c) (c_to c) = Some rs /\ Forall (fun r => readable (show K r)) rs /\
              zlen (listing K (c_to c) rs) <= 4095).
(** The chain lost exactly its expired rules *)
Definition cleaned (K : iptables) (now : Z) (fw fw' : firewall) (t c : bytes) : Prop :=
  exists rs rs', fw t c = Some rs /\ fw' t c = Some rs' /\ without (expired K now) rs rs'.

(** [grown new P fw fw']: from [fw] to [fw'] no rule is lost and none is moved; each rule added
    to chain [c] of table [t] satisfies [P t c], and a chain made satisfies [new t c] *)
Definition grown (new : bytes -> bytes -> Prop) (P : bytes -> bytes -> rule -> Prop) (fw fw' : firewall) : Prop :=
  forall t c,
    match fw t c with
    | Some rs => exists rs', fw' t c = Some rs' /\ only_drops (P t c) rs' rs
    | None => fw' t c = None \/ new t c /\ exists rs', fw' t c = Some rs' /\ Forall (P t c) rs'
    end.

(** ** The rules of access requests *)
(** [jump_to c t n r]: [r] is the rule that leads to chain [c]; it belongs in chain [n] of [t] *)
Definition jump_to (c : chain) (t n : bytes) (r : rule) : Prop :=
  t = c_table c /\ n = c_from c /\ r = [$ "-j"; c_to c].
Definition is_chain (c : chain) (t n : bytes) : Prop := c_to c <> [] /\ t = c_table c /\ n = c_to c.

Definition expiring (x target : bytes) : rule :=
  [$ "-m"; $ "comment"; $ "--comment"; mark ++ x; $ "-j"; target].
(** From [src] to [dst], protocol and destination port, until [e] *)
Definition opens (src dst : bytes) (proto port e : Z) (target : bytes) (r : rule) : Prop :=
  exists p q x, numeral proto p /\ numeral port q /\ numeral e x /\
    r = [$ "-p"; p; $ "-s"; src; $ "-d"; dst; $ "--dport"; q] ++ expiring x target.
(** The packets of the opposite direction *)
Definition answers (src dst : bytes) (proto port e : Z) (target : bytes) (r : rule) : Prop :=
  exists p q x, numeral proto p /\ numeral port q /\ numeral e x /\
    r = [$ "-p"; p; $ "-d"; src; $ "-s"; dst; $ "--sport"; q] ++ expiring x target.
(** Forwarding of one port, or of everything *)
Definition forwards (all : bool) (src : bytes) (proto port e : Z) (target : bytes) (r : rule) : Prop :=
  exists p q x, numeral proto p /\ numeral port q /\ numeral e x /\
    r = (if all then [$ "-s"; src] else [$ "-p"; p; $ "-s"; src; $ "--dport"; q]) ++ expiring x target.
(** Change of the destination to [ip], and of the port to [to] unless everything is forwarded *)
Definition redirects (all : bool) (src dst : bytes) (proto port e : Z) (target ip : bytes) (to : Z) (r : rule) : Prop :=
  exists p q x n, numeral proto p /\ numeral port q /\ numeral e x /\ numeral to n /\
    r = (if all then [$ "-s"; src; $ "-d"; dst] else [$ "-p"; p; $ "-s"; src; $ "-d"; dst; $ "--dport"; q])
        ++ expiring x target ++ [$ "--to-destination"; if all then ip else ip ++ [":"%byte] ++ n].
(** Change of the source address, as given by the arguments [how] *)
Definition translates (all : bool) (src : bytes) (proto : Z) (ip : bytes) (to e : Z) (target : bytes) (how : list bytes) (r : rule) : Prop :=
  exists p n x, numeral proto p /\ numeral to n /\ numeral e x /\
    r = (if all then [$ "-s"; src] else [$ "-p"; p; $ "-d"; ip; $ "--dport"; n]) ++ expiring x target ++ how.
(** A rule that satisfies [Q] in chain [c], or the jump to that chain *)
Definition within (c : chain) (Q : rule -> Prop) (t n : bytes) (r : rule) : Prop :=
  c_to c <> [] /\ (jump_to c t n r \/ t = c_table c /\ n = c_to c /\ Q r).

(** How a source address is changed, by the settings of the stanza and of the daemon: to a
    configured address in the SNAT chain (number 4), or in the masquerading chain (number 5) *)
Inductive snat_how (cf : fwconf) (nc : nat_conf) (port : Z) : nat -> list bytes -> Prop :=
| how_address a : address_text a -> (n_snat nc = true /\ a = n_snat_ip nc) \/ a = f_snat_ip cf ->
    snat_how cf nc port 4 [$ "--to-source"; a]
| how_ports q : n_forward_all nc = false -> numeral port q -> snat_how cf nc port 5 [$ "--to-ports"; q]
| how_any : n_forward_all nc = true -> snat_how cf nc port 5 [].

(** The requested protocols and ports *)
Definition requested (s : bytes) (pl : list (Z * Z)) : Prop :=
  exists items, listed s items /\
    Forall2 (fun it x => port_entry it (fst x) (snd x) /\ zlen it <= 31) items pl.
Definition local_nat (ty : Z) : Prop := ty = 5 \/ ty = 6.
Definition wants_nat (nc : nat_conf) (ty : Z) : Prop := local_nat ty \/ ty = 2 \/ ty = 4 \/ n_force nc = true.
(** The internal address and port: those of the stanza, or those of the request *)
Definition nat_goal (nc : nat_conf) (nat ip : bytes) (to : Z) : Prop :=
  address_text ip /\ 0 <= to <= 65535 /\
  if n_force nc then ip = n_force_ip nc /\ to = n_force_port nc
  else exists q, nat = ip ++ [","%byte] ++ q /\ q <> [] /\ all_digits q /\ decimal q = to.
(** The chains and rules an access request may make: those of the input chain [ci] and, if it
    is in use, of the output chain [co], for a requested protocol and port *)
Definition access_chains (ci co : chain) (t n : bytes) : Prop := is_chain ci t n \/ is_chain co t n.
Definition access_rules (src dst : bytes) (e : Z) (ci co : chain) (pl : list (Z * Z)) (t n : bytes) (r : rule) : Prop :=
  jump_to ci t n r \/ (c_to co <> [] /\ jump_to co t n r) \/
  exists proto port, In (proto, port) pl /\
    ((is_chain ci t n /\ opens src dst proto port e (c_target ci) r) \/
     (is_chain co t n /\ answers src dst proto port e (c_target co) r)).
Definition any_chain (cs : list chain) (t n : bytes) : Prop := exists j, is_chain (chain_at j cs) t n.

(** The rules a NAT request may make for its first entry [proto], [port]; [i] and [how] say how
    the source address is changed *)
Definition nat_rules (cf : fwconf) (nc : nat_conf) (ty : Z) (cs : list chain) (src dst : bytes) (proto port : Z)
    (ip : bytes) (to e : Z) (i : nat) (how : list bytes) (t n : bytes) (r : rule) : Prop :=
  (local_nat ty /\ within (chain_at 0 cs) (opens src dst proto to e (c_target (chain_at 0 cs))) t n r) \/
  (~ local_nat ty /\ within (chain_at 2 cs) (forwards (n_forward_all nc) src proto to e (c_target (chain_at 2 cs))) t n r) \/
  (n_no_dnat nc = false /\
     within (chain_at 3 cs) (redirects (n_forward_all nc) src dst proto port e (c_target (chain_at 3 cs)) ip to) t n r) \/
  (n_snat nc || f_snat cf = true /\
     within (chain_at i cs) (translates (n_forward_all nc) src proto ip to e (c_target (chain_at i cs)) how) t n r).
(** The rule is in the chain *)
Definition present (fw : firewall) (c : chain) (r : rule) : Prop :=
  exists rs, fw (c_table c) (c_to c) = Some rs /\ In r rs.

(** Fates under which iptables never exits without having done its work, and never dies after
    having done it *)
Definition honest (f : fate) : Prop := f = Runs \/ f = DiesBefore \/ f = NoStart.

Definition rounds_state : Type := Z * state machine.
(** Rounds of the main loop: before each, anything may happen to the firewall and to the
    counters of the chains. *)
Fixpoint rounds (K : iptables) (cf : fwconf) (threshold : Z) (h : list ((state machine -> state machine) * Z)) (x : rounds_state)
  : outcome rounds_state :=
  match h with
  | [] => Ok x
  | (change, now) :: r =>
      bind (check_round (run_iptables K) cf threshold now (fst x, change (snd x))) (rounds K cf threshold r)
  end.
