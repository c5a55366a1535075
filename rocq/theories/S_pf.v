(** What pfctl does, as far as the daemon uses it, and the vocabulary of the properties of the
    pf back end.  Of the model only the data types are used, and at the end its operations, of
    which [serve] makes histories. *)
From Verif Require Import Bytes S_text S_access S_incoming M_util M_packet M_incoming M_cycle M_fw S_fw M_pf.
From Coq Require Import Init.Byte List ZArith Bool.
Import ListNotations.
Open Scope Z_scope.

(** The rules of each anchor; a rule is the line that pfctl shows for it *)
Definition anchors := bytes -> list bytes.
Definition put_anchor (ac : anchors) (a : bytes) (rs : list bytes) : anchors :=
  fun b => if bseq b a then rs else ac b.

(** What depends on the system: how pfctl shows a rule that it reads (or that it does not accept
    it), what it writes to standard error with a listing, and the anchors of the main rules *)
Record pf := mkPfctl { shown : bytes -> option bytes; noise : bytes; linked : bytes }.

Definition lines (rs : list bytes) : bytes := concat (map (fun x => x ++ [x0a]) rs).
Fixpoint lines_of (s cur : bytes) : list bytes :=
  match s with
  | [] => match cur with [] => [] | _ => [cur] end
  | c :: r => if beq c x0a then cur :: lines_of r [] else lines_of r (cur ++ [c])
  end.
Fixpoint all_shown (K : pf) (l : list bytes) : option (list bytes) :=
  match l with
  | [] => Some []
  | y :: r => match shown K y, all_shown K r with Some x, Some t => Some (x :: t) | _, _ => None end
  end.

(** pfctl -a ANCHOR -s rules, pfctl -a ANCHOR -F all, pfctl -s Anchor: the anchors afterwards
    and the output *)
Definition pfctl (K : pf) (ac : anchors) (argv : list bytes) : anchors * bytes :=
  match argv with
  | [_; o; a; p; q] =>
      if bseq o ($ "-a") then
        if bseq p ($ "-s") && bseq q ($ "rules") then (ac, noise K ++ lines (ac a))
        else if bseq p ($ "-F") && bseq q ($ "all") then (put_anchor ac a [], [])
        else (ac, [])
      else (ac, [])
  | [_; o; p] => (ac, if bseq o ($ "-s") && bseq p ($ "Anchor") then linked K else [])
  | _ => (ac, [])
  end.
(** pfctl -a ANCHOR -f -: all the lines are accepted and are the new rules, or nothing changes *)
Definition pfctl_load (K : pf) (ac : anchors) (argv : list bytes) (text : bytes) : anchors :=
  match argv with
  | [_; o; a; p; q] =>
      if bseq o ($ "-a") && bseq p ($ "-f") && bseq q ($ "-") then
        match all_shown K (lines_of text []) with
        | Some rs => put_anchor ac a rs
        | None => ac
        end
      else ac
  | _ => ac
  end.

(** A machine: the anchors, and the fates of the next runs of pfctl, all those after these
    being Runs *)
Definition machine : Type := anchors * list fate.
Definition run_pfctl (K : pf) (m : machine) (argv : list bytes) : machine * ended * bytes :=
  let '(ac, fs) := m in
  let '(ac', out) := pfctl K ac argv in
  match hd Runs fs with
  | Runs => ((ac', tl fs), Exited, out)
  | Refuses => ((ac, tl fs), Exited, [])
  | DiesBefore => ((ac, tl fs), Killed, [])
  | DiesAfter => ((ac', tl fs), Killed, out)
  | NoStart => ((ac, tl fs), NotStarted, [])
  end.
Definition feed_pfctl (K : pf) (m : machine) (argv : list bytes) (text : bytes) : machine * bool :=
  let '(ac, fs) := m in
  match hd Runs fs with
  | Runs | DiesAfter => ((pfctl_load K ac argv text, tl fs), true)
  | Refuses | DiesBefore => ((ac, tl fs), true)
  | NoStart => ((ac, tl fs), false)
  end.

(** ** Rules *)
(** The line [x] contains the mark once, in a quoted label with a time of ten digits *)
Definition until (x : bytes) (e : Z) : Prop :=
  exists pre ds post,
    x = pre ++ mark ++ ds ++ [""""%byte] ++ post /\ (forall a b, x = a ++ mark ++ b -> a = pre) /\
    numeral e ds /\ zlen ds = 10.
Definition own (x : bytes) : Prop :=
  (exists e, until x e) /\ (exists r, x = $ "pass" ++ r) /\ ~ In x0a x /\ ~ In x00 x.
Definition lapsed (now : Z) (x : bytes) : Prop := exists e, until x e /\ e <= now.

(** The text of a request to let [src] in to [dst], by protocol and port, until [e] *)
Definition asks (src dst : bytes) (proto port e : Z) (y : bytes) : Prop :=
  exists p q n, numeral proto p /\ numeral port q /\ numeral e n /\
    y = $ "pass in quick proto " ++ p ++ $ " from " ++ src ++ $ " to " ++ dst ++ $ " port " ++ q ++ $ " keep state label " ++ mark ++ n.
(** The rule [x] is how pfctl shows that request *)
Definition grants (K : pf) (src dst : bytes) (e : Z) (pp : Z * Z) (x : bytes) : Prop :=
  exists y, asks src dst (fst pp) (snd pp) e y /\ shown K y = Some x.

(** Times that have ten digits and fit the 32 bits the daemon computes with *)
Definition ten_digits (e : Z) : Prop := 1000000000 <= e < 4294967296.

(** What is assumed of pfctl: it reads what it shows; it accepts each request and shows it as a
    rule on one line that begins with pass and has the label *)
Definition reads_back (K : pf) : Prop := forall y x, shown K y = Some x -> shown K x = Some x.
Definition accepts (K : pf) : Prop :=
  forall src dst proto port e y, address_text src -> dst = $ "any" \/ address_text dst ->
    0 <= proto <= 255 -> 0 <= port <= 65535 -> ten_digits e -> asks src dst proto port e y ->
    exists x, shown K y = Some x /\ own x /\ until x e.
Definition pf_ok (K : pf) : Prop := noise K = [] /\ reads_back K /\ accepts K.

(** A rule of the daemon as pfctl keeps it *)
Definition held (K : pf) (x : bytes) : Prop := own x /\ shown K x = Some x.

(** The command lines fit the buffers *)
Definition conf_fits (cf : pfconf) : Prop := word (p_cmd cf) /\ word (p_anchor cf) /\ zlen (p_cmd cf) + zlen (p_anchor cf) <= 200.

Definition elsewhere (a : bytes) (ac ac' : anchors) : Prop := forall b, b <> a -> ac' b = ac b.

(** ** Requests and histories *)
(** A request for access that the daemon has accepted at [now] *)
Definition access_request (cf : pfconf) (d : spa_data) (now : Z) (dst : bytes) (e : Z) (pl : list (Z * Z)) : Prop :=
  (d_type d = 1 \/ d_type d = 3) /\ requested (d_remain d) pl /\ address_text (d_use d) /\
  (if p_use_dst cf then dst = d_pkt_dst d /\ address_text dst else dst = $ "any") /\
  e = now + d_timeout d /\ 0 <= d_timeout d /\ ten_digits e.

(** [n] is the first time at which one of the rules ends, 0 without rules *)
Definition first_end (rs : list bytes) (n : Z) : Prop :=
  rs = [] /\ n = 0 \/ (exists x, In x rs /\ until x n) /\ forall y e, In y rs -> until y e -> n <= e.
(** The counters of the daemon agree with the rules of its anchor *)
Definition agree (rs : list bytes) (k : counters) : Prop := k_active k = zlen rs /\ first_end rs (k_next k).

Inductive op := Ask (d : spa_data) | Check.
Definition state : Type := counters * machine.
Definition serve_one (K : pf) (cf : pfconf) (now : Z) (o : op) (s : state) : outcome state :=
  match o with
  | Ask d => bind (process_spa_request machine (run_pfctl K) (feed_pfctl K) cf d now (fst s) (snd s))
                  (fun r => let '(_, k, m) := r in Ok (k, m))
  | Check => check_firewall_rules machine (run_pfctl K) (feed_pfctl K) cf now (fst s) (snd s)
  end.
Fixpoint serve (K : pf) (cf : pfconf) (h : list (Z * op)) (s : state) : outcome state :=
  match h with
  | [] => Ok s
  | (now, o) :: r => bind (serve_one K cf now o s) (serve K cf r)
  end.

(** [granted K cf now rs h rs']: what the anchor should hold.  From the time [now] on, with the
    rules [rs] at first, the history [h] leads to the rules [rs']: the clock does not go back;
    each request adds its rules behind the others, if none of these is overdue and there is
    room; each check removes exactly those whose time has come; other messages do nothing. *)
Inductive granted (K : pf) (cf : pfconf) : Z -> list bytes -> list (Z * op) -> list bytes -> Prop :=
| granted_end now rs : granted K cf now rs [] rs
| granted_check now t rs rs1 h rs' : now <= t -> without (lapsed t) rs rs1 -> granted K cf t rs1 h rs' ->
    granted K cf now rs ((t, Check) :: h) rs'
| granted_other now t d rs h rs' : now <= t -> d_type d <> 1 -> d_type d <> 3 -> granted K cf t rs h rs' ->
    granted K cf now rs ((t, Ask d) :: h) rs'
| granted_ask now t d dst e pl xs rs h rs' : now <= t -> access_request cf d t dst e pl ->
    Forall2 (grants K (d_use d) dst e) pl xs ->
    Forall (fun x => forall e, until x e -> t <= e) rs -> zlen (lines (rs ++ xs)) <= 3956 ->
    granted K cf t (rs ++ xs) h rs' ->
    granted K cf now rs ((t, Ask d) :: h) rs'.
