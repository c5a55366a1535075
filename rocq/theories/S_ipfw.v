(** What ipfw does, as far as the daemon uses it, and the vocabulary of the properties of the
    ipfw back end.  [lines] and [ten_digits] are those of S_pf.v.  Of the model only the data types
    are used, and at the end its operations, of which [serve] makes histories. *)
From Verif Require Import Bytes S_text S_access S_incoming M_util M_packet M_incoming M_cycle M_fw S_fw M_pf S_pf M_ipfw.
From Coq Require Import Init.Byte List ZArith Bool.
Import ListNotations.
Open Scope Z_scope.

(** A rule has a number, is in a set, and has a body: the words it was added with *)
Record rule := mkRule { r_num : Z; r_set : Z; r_body : list bytes }.
(** The rules by number, the sets that are disabled, and the dynamic rules: connections with the
    number of the rule that let them in *)
Record table := mkTable { t_rules : list rule; t_off : list Z; t_dyn : list (Z * bytes) }.

(** What depends on the system: how ipfw writes numbers and bodies, which bodies it accepts, and
    the heading of the dynamic rules *)
Record ipfw := mkIpfw { number : Z -> bytes; show : list bytes -> bytes; legal : list bytes -> bool; dyn_heading : bytes }.

Definition memz (n : Z) (l : list Z) : bool := existsb (Z.eqb n) l.
Definition is_at (n s : Z) (r : rule) : bool := (r_num r =? n) && (r_set r =? s).
(** A new rule comes behind those with the same number *)
Fixpoint insert (r : rule) (l : list rule) : list rule :=
  match l with
  | [] => [r]
  | x :: t => if r_num r <? r_num x then r :: x :: t else x :: insert r t
  end.
Definition moved (n s : Z) (r : rule) : rule := if r_num r =? n then mkRule (r_num r) s (r_body r) else r.

(** A set of rules, and its listings *)
Definition in_set (s : Z) (l : list rule) : list rule := filter (fun r => r_set r =? s) l.
Definition rule_line (K : ipfw) (r : rule) : bytes := number K (r_num r) ++ [" "%byte] ++ show K (r_body r).
Definition set_lines (K : ipfw) (s : Z) (t : table) : list bytes :=
  if memz s (t_off t) then [] else map (rule_line K) (in_set s (t_rules t)).
Definition set_lines_off (K : ipfw) (s : Z) (t : table) : list bytes :=
  map (fun r => (if memz s (t_off t) then $ "# DISABLED " else []) ++ rule_line K r) (in_set s (t_rules t)).
(** Dynamic rules of a set *)
Definition dyn_of (s : Z) (t : table) : list (Z * bytes) := filter (fun c => existsb (is_at (fst c) s) (t_rules t)) (t_dyn t).
Definition dyn_lines (K : ipfw) (s : Z) (t : table) : list bytes :=
  match t_dyn t with
  | [] => []
  | _ => dyn_heading K :: map (fun c => number K (fst c) ++ snd c) (dyn_of s t)
  end.

(** The commands the daemon uses: the table afterwards and the output.  The output of those that
    change the table is left out. *)
Definition with_rules (t : table) (l : list rule) : table := mkTable l (t_off t) (t_dyn t).
Definition run_add (K : ipfw) (t : table) (args : list bytes) : table :=
  match args with
  | n :: w :: s :: body =>
      if bseq w ($ "set") && legal K body then with_rules t (insert (mkRule (decimal n) (decimal s) body) (t_rules t)) else t
  | _ => t
  end.
Definition run_set (K : ipfw) (t : table) (args : list bytes) : table * bytes :=
  match args with
  | [a; b] => if bseq a ($ "disable") then (mkTable (t_rules t) (decimal b :: t_off t) (t_dyn t), [])
              else if bseq b ($ "list") then (t, lines (set_lines K (decimal a) t))
              else (t, [])
  | [a; b; c] => if bseq b ($ "delete") then (with_rules t (filter (fun r => negb (is_at (decimal c) (decimal a) r)) (t_rules t)), [])
                 else (t, [])
  | [a; b; c; d; e] => if bseq a ($ "move") && bseq b ($ "rule") && bseq d ($ "to")
                       then (with_rules t (map (moved (decimal c) (decimal e)) (t_rules t)), [])
                       else (t, [])
  | _ => (t, [])
  end.
Definition run_delete (t : table) (args : list bytes) : table :=
  match args with
  | [a; b] => if bseq a ($ "set") then with_rules t (filter (fun r => negb (r_set r =? decimal b)) (t_rules t)) else t
  | _ => t
  end.
Definition run_list (K : ipfw) (t : table) (o : bytes) (args : list bytes) : bytes :=
  match args with
  | [a; b; c] =>
      if bseq a ($ "set") && bseq c ($ "list") then
        if bseq o ($ "-S") then lines (set_lines_off K (decimal b) t)
        else if bseq o ($ "-d") then lines (set_lines K (decimal b) t ++ dyn_lines K (decimal b) t)
        else []
      else []
  | _ => []
  end.
Definition ipfw_run (K : ipfw) (t : table) (argv : list bytes) : table * bytes :=
  match argv with
  | _ :: a :: args =>
      if bseq a ($ "add") then (run_add K t args, [])
      else if bseq a ($ "set") then run_set K t args
      else if bseq a ($ "delete") then (run_delete t args, [])
      else (t, run_list K t a args)
  | _ => (t, [])
  end.

(** A machine: the table, and the fates of the next runs of ipfw, all those after these being
    Runs *)
Definition machine : Type := table * list fate.
Definition exec_ipfw (K : ipfw) (m : machine) (argv : list bytes) : machine * ended * bytes :=
  let '(t, fs) := m in
  let '(t', out) := ipfw_run K t argv in
  match hd Runs fs with
  | Runs => ((t', tl fs), Exited, out)
  | Refuses => ((t, tl fs), Exited, [])
  | DiesBefore => ((t, tl fs), Killed, [])
  | DiesAfter => ((t', tl fs), Killed, out)
  | NoStart => ((t, tl fs), NotStarted, [])
  end.

(** ** Rules *)
(** The text [x] ends with the mark and a time of ten digits, and has no other mark *)
Definition until (x : bytes) (e : Z) : Prop :=
  exists pre ds, x = pre ++ mark ++ ds /\ (forall a b, x = a ++ mark ++ b -> a = pre) /\ numeral e ds /\ zlen ds = 10.
Definition one_line (x : bytes) : Prop := ~ In x0a x /\ ~ In x00 x.
Definition ends_at (K : ipfw) (r : rule) (e : Z) : Prop := until (show K (r_body r)) e /\ one_line (show K (r_body r)).

(** The words of a rule that lets [src] in to [dst], by protocol and port, until [e] *)
Definition asks (src dst : bytes) (e : Z) (pp : Z * Z) (body : list bytes) : Prop :=
  exists p q n, numeral (fst pp) p /\ numeral (snd pp) q /\ numeral e n /\
    body = [$ "pass"; p; $ "from"; src; $ "to"; dst; $ "dst-port"; q; $ "setup"; $ "keep-state"; $ "//"; mark ++ n].

(** What is assumed of ipfw: it writes rule numbers with at most five digits; it accepts each
    request and shows it on one line, with the comment at its end *)
Definition number_ok (K : ipfw) : Prop :=
  forall n, 0 <= n <= 65535 -> number K n <> [] /\ all_digits (number K n) /\ decimal (number K n) = n /\ zlen (number K n) <= 5.
Definition accepts (K : ipfw) : Prop :=
  forall src dst e pp body, address_text src -> dst = $ "me" \/ address_text dst ->
    0 <= fst pp <= 255 -> 0 <= snd pp <= 65535 -> ten_digits e -> asks src dst e pp body ->
    legal K body = true /\ until (show K body) e /\ one_line (show K body).
Definition heading_ok (K : ipfw) : Prop :=
  one_line (dyn_heading K) /\ exists a b, map tolower (dyn_heading K) = a ++ $ "## dynamic rules" ++ b.
Definition ipfw_ok (K : ipfw) : Prop := number_ok K /\ accepts K /\ heading_ok K.

(** ** The configuration *)
(** Command lines fit the buffers; two different sets; numbers that ipfw has *)
Definition conf_fits (cf : ipfwconf) : Prop :=
  word (i_cmd cf) /\ zlen (i_cmd cf) <= 100 /\ 0 < i_active cf <= 31 /\ 0 < i_expire cf <= 31 /\ i_active cf <> i_expire cf /\
  0 < i_start cf /\ 0 <= i_max cf /\ i_start cf + i_max cf <= 65536.
Definition in_range (cf : ipfwconf) (n : Z) : Prop := i_start cf <= n < i_start cf + i_max cf.
(** What the daemon's books say of a number *)
Definition status (cf : ipfwconf) (k : books) (n : Z) : option Z :=
  if n <? i_start cf then None else nth_error (b_map k) (Z.to_nat (n - i_start cf)).

(** ** States *)
(** The daemon's books agree with the table.  Each rule that is in one of the daemon's sets, or
    has one of its numbers, is either in the expire set, with its number marked as expired, or in
    the active set, with its number marked as active; in the active set there are rules with an
    end, those with the same number having the same end. *)
Record tidy (K : ipfw) (cf : ipfwconf) (k : books) (t : table) : Prop := mkTidy {
  tidy_map : zlen (b_map k) = i_max cf;
  tidy_on : ~ In (i_active cf) (t_off t);
  tidy_off : In (i_expire cf) (t_off t);
  tidy_active : forall r, In r (t_rules t) -> r_set r = i_active cf ->
    in_range cf (r_num r) /\ status cf k (r_num r) = Some 1 /\ exists e, ends_at K r e;
  tidy_expire : forall r, In r (t_rules t) -> r_set r = i_expire cf ->
    in_range cf (r_num r) /\ status cf k (r_num r) = Some 2;
  tidy_else : forall r, In r (t_rules t) -> in_range cf (r_num r) -> r_set r = i_active cf \/ r_set r = i_expire cf;
  tidy_same : forall r r' e e', In r (t_rules t) -> In r' (t_rules t) -> r_set r = i_active cf -> r_set r' = i_active cf ->
    r_num r = r_num r' -> ends_at K r e -> ends_at K r' e' -> e = e';
  tidy_dyn : Forall (fun c => one_line (snd c) /\ ~ digit (hd x00 (snd c))) (t_dyn t) }.

(** A rule is open if its set is not disabled *)
Definition open (t : table) (r : rule) : Prop := In r (t_rules t) /\ ~ In (r_set r) (t_off t).

(** What is not the daemon's stays as it is *)
Definition foreign (cf : ipfwconf) (r : rule) : Prop := r_set r <> i_active cf /\ r_set r <> i_expire cf.
Definition others_same (cf : ipfwconf) (t t' : table) : Prop :=
  t_off t' = t_off t /\ forall r, foreign cf r -> (In r (t_rules t') <-> In r (t_rules t)).

(** The listings fit the buffer they are read into *)
Definition listings_fit (K : ipfw) (cf : ipfwconf) (t : table) : Prop :=
  zlen (lines (set_lines K (i_active cf) t)) <= 4095 /\ zlen (lines (dyn_lines K (i_expire cf) t)) <= 4095.

(** ** Requests and histories *)
(** A request for access that the daemon has accepted at [now] *)
Definition access_request (cf : ipfwconf) (d : spa_data) (now : Z) (dst : bytes) (e : Z) (pl : list (Z * Z)) : Prop :=
  (d_type d = 1 \/ d_type d = 3) /\ requested (d_remain d) pl /\ address_text (d_use d) /\
  (if i_use_dst cf then dst = d_pkt_dst d /\ address_text dst else dst = $ "me") /\
  e = now + d_timeout d /\ 0 <= d_timeout d /\ ten_digits e.
(** The rule [r] is one that the request opens for the protocol and port [pp] *)
Definition grants (cf : ipfwconf) (d : spa_data) (dst : bytes) (e : Z) (n : Z) (pp : Z * Z) (r : rule) : Prop :=
  r_num r = n /\ r_set r = i_active cf /\ asks (d_use d) dst e pp (r_body r).

(** [Traffic]: connections begin and end *)
Inductive op := Ask (d : spa_data) | Check | Purge | Traffic (c : list (Z * bytes)).
Definition state : Type := books * machine.
Definition serve_one (K : ipfw) (cf : ipfwconf) (now : Z) (o : op) (s : state) : outcome state :=
  match o with
  | Ask d => bind (process_spa_request machine (exec_ipfw K) cf d now (fst s) (snd s))
                  (fun r => let '(_, k, m) := r in Ok (k, m))
  | Check => check_firewall_rules machine (exec_ipfw K) cf now (fst s) (snd s)
  | Purge => purge_round machine (exec_ipfw K) cf now (fst s) (snd s)
  | Traffic c => let '(k, (t, fs)) := s in Ok (k, (mkTable (t_rules t) (t_off t) c, fs))
  end.
Fixpoint serve (K : ipfw) (cf : ipfwconf) (h : list (Z * op)) (s : state) : outcome state :=
  match h with
  | [] => Ok s
  | (now, o) :: r => bind (serve_one K cf now o s) (serve K cf r)
  end.

(** What may happen at [now]: accepted requests, other messages, checks, and connections *)
Definition proper (cf : ipfwconf) (now : Z) (o : op) : Prop :=
  match o with
  | Ask d => d_type d <> 1 /\ d_type d <> 3 \/ exists dst e pl, access_request cf d now dst e pl
  | Traffic c => Forall (fun c => one_line (snd c) /\ ~ digit (hd x00 (snd c))) c
  | _ => True
  end.
(** A history from the time [now] on: the clock does not go back *)
Fixpoint history (cf : ipfwconf) (now : Z) (h : list (Z * op)) : Prop :=
  match h with
  | [] => True
  | (t, o) :: r => now <= t /\ proper cf t o /\ history cf t r
  end.
(** The listings fit in every state the history passes through *)
Fixpoint fits_along (K : ipfw) (cf : ipfwconf) (h : list (Z * op)) (s : state) : Prop :=
  listings_fit K cf (fst (snd s)) /\
  match h with
  | [] => True
  | (t, o) :: r => match serve_one K cf t o s with Ok s' => fits_along K cf r s' | Fault => True end
  end.

(** The numbers in use for rules that are open *)
Definition active_numbers (cf : ipfwconf) (t : table) : list Z := nodup Z.eq_dec (map r_num (in_set (i_active cf) (t_rules t))).
(** Beside agreeing with the table, the books count enough active rules, but no more than there
    may be, and name a time that has come or at which a rule ends *)
Record sound (K : ipfw) (cf : ipfwconf) (now : Z) (k : books) (t : table) : Prop := mkSound {
  sound_tidy : tidy K cf k t;
  sound_count : Z.of_nat (List.length (active_numbers cf t)) <= b_active k;
  sound_max : b_active k <= i_max cf;
  sound_next : b_next k <= now \/ exists r, In r (t_rules t) /\ r_set r = i_active cf /\ ends_at K r (b_next k) }.
(** The rules counted as active never number more than there may be *)
Fixpoint counted_along (K : ipfw) (cf : ipfwconf) (h : list (Z * op)) (s : state) : Prop :=
  match h with
  | [] => True
  | (t, o) :: r =>
      (forall d dst e pl, o = Ask d -> access_request cf d t dst e pl -> b_active (fst s) + zlen pl <= i_max cf) /\
      match serve_one K cf t o s with Ok s' => counted_along K cf r s' | Fault => True end
  end.
(** The time after a history *)
Definition last_time (now : Z) (h : list (Z * op)) : Z := last (map fst h) now.

(** A machine the daemon can start on: its sets hold rules with its numbers only, those that have
    expired being shown without a number sign; no rule outside them has one of its numbers *)
Record startable (K : ipfw) (cf : ipfwconf) (t : table) : Prop := mkStartable {
  start_on : ~ In (i_active cf) (t_off t);
  start_expire : forall r, In r (t_rules t) -> r_set r = i_expire cf -> in_range cf (r_num r) /\ one_line (show K (r_body r)) /\ ~ In "#"%byte (show K (r_body r));
  start_active : forall r, In r (t_rules t) -> r_set r = i_active cf -> one_line (rule_line K r);
  start_else : forall r, In r (t_rules t) -> in_range cf (r_num r) -> r_set r = i_active cf \/ r_set r = i_expire cf;
  start_dyn : Forall (fun c => one_line (snd c) /\ ~ digit (hd x00 (snd c))) (t_dyn t);
  start_fit : zlen (lines (set_lines K (i_active cf) t)) <= 4095;
  start_fit_off : zlen (lines (map (fun r => $ "# DISABLED " ++ rule_line K r) (in_set (i_expire cf) (t_rules t)))) <= 4095 }.
