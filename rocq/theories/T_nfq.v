(** Property theorems: packets from a queue of netfilter. *)
From Verif Require Import Bytes S_text S_access S_codec S_replay S_cycle M_util M_message M_codec M_ctx M_access M_replay M_cycle M_incoming M_packet
  M_fw M_fwinit M_daemon S_incoming S_packet S_fw S_fwinit S_daemon P_bytes P_packet T_codec T_ctx T_fw T_incoming T_packet T_daemon M_nfq S_nfq P_nfq.
From Verif Require M_life.
From Coq Require Import Init.Byte List ZArith Bool Lia.
Import ListNotations.
Open Scope Z_scope.

(** ** C93 With a queue of netfilter the daemon takes the same packets and ends when it is told to *)
(** A datagram without IP options from an ordinary source is taken if its data have 140 to 1500
    bytes and it has at most 1514, with these data and its addresses and ports; and no other data
    are taken from it. *)
Theorem C93_taken_partial : forall f i data, datagram f i data -> header_words f = 5 -> ordinary (p_src i) ->
  forall data' i', seen f = Ok (Some (data', i')) <-> data' = data /\ i' = i /\ 140 <= zlen data <= 1500 /\ zlen f <= 1514.
Proof. exact seen_ordinary. Qed.
Print Assumptions C93_taken_partial.
Example C93_taken_ex : datagram (ipv4 5 17 udp1) (mkPkt 17 167837955 40000 3232235777 62201) packet1 /\ header_words (ipv4 5 17 udp1) = 5 /\ ordinary 167837955 /\
  seen (ipv4 5 17 udp1) = Ok (Some (packet1, mkPkt 17 167837955 40000 3232235777 62201)).
Proof.
  destruct (udp1_datagram 5 (or_introl eq_refl)) as (D & W). split; [exact D|]. split; [exact W|]. split; [|vm_compute; reflexivity].
  unfold ordinary. split; [reflexivity|]. split; vm_compute; discriminate.
Qed.
(** The packets of the queue begin with the IP header, but bytes 12 and 13 are taken for the type
    of an Ethernet frame: no datagram from 0.x.x.x or from 2.0.0.0 to 5.220.255.255 is ever taken,
    whatever it contains, because the header is looked for three bytes later. *)
Theorem C93_source_refuted : forall f i data, datagram f i data -> octets12 (p_src i) <= 1500 -> octet1 (p_src i) <> 1 ->
  forall data' i', seen f <> Ok (Some (data', i')).
Proof. intros f i data D O N. exact (seen_foreign f i data D O N (zlen f)). Qed.
Print Assumptions C93_source_refuted.
Definition ip_from (len id : Z) (src dst : bytes) (proto : Z) (seg : bytes) : bytes :=
  [x45; x00] ++ be16 len ++ be16 id ++ [b 64; x00; b 64; b proto; x00; x00] ++ src ++ dst ++ seg.
Definition f_foreign : bytes := ip_from (20 + zlen udp1) 0 [b 2; b 1; b 1; b 3] [b 192; b 168; b 1; b 1] 17 udp1.
Example C93_source_ex : exists i, datagram f_foreign i packet1 /\ octets12 (p_src i) <= 1500 /\ octet1 (p_src i) = 2 /\ 140 <= zlen packet1 <= 1500.
Proof.
  exists (mkPkt 17 33620227 40000 3232235777 62201). split; [|split; [vm_compute; discriminate|split; [reflexivity|split; vm_compute; discriminate]]].
  exists (firstn 20 f_foreign), udp1. split; [vm_compute; reflexivity|]. split; [vm_compute; reflexivity|]. split; [vm_compute; discriminate|].
  repeat (split; [vm_compute; reflexivity|]). exists (firstn 8 udp1). split; [vm_compute; reflexivity|]. right. left. split; [reflexivity|]. split; [vm_compute; reflexivity|]. split; vm_compute; reflexivity.
Qed.
(** From 1.x.x.x a datagram may be taken with a wrong source: the last octet of its source and
    the first three of its destination.  Here one from 1.2.3.10 to 20.30.40.50 is said to come from 10.20.30.40. *)
Definition seg_any : bytes := be16 40000 ++ be16 62201 ++ be16 0 ++ be16 0 ++ repeat "a"%byte 297.
Definition f_wrong : bytes := ip_from 325 1 [b 1; b 2; b 3; b 10] [b 20; b 30; b 40; b 50] 17 seg_any.
Theorem C93_wrong_source_refuted : exists f i data data' i', datagram f i data /\ p_src i = 16909066 /\ seen f = Ok (Some (data', i')) /\ p_src i' = 169090600 /\ data' <> data.
Proof.
  exists f_wrong, (mkPkt 17 16909066 40000 337520690 62201), (repeat "a"%byte 297), (match seen f_wrong with Ok (Some (d, _)) => d | _ => [] end), (mkPkt 1 169090600 0 849101042 0).
  split.
  { exists (firstn 20 f_wrong), seg_any. split; [vm_compute; reflexivity|]. split; [vm_compute; reflexivity|]. split; [vm_compute; discriminate|].
    repeat (split; [vm_compute; reflexivity|]). exists (firstn 8 seg_any). split; [vm_compute; reflexivity|]. right. left. split; [reflexivity|]. split; [vm_compute; reflexivity|]. split; vm_compute; reflexivity. }
  split; [reflexivity|]. split; [vm_compute; reflexivity|]. split; [reflexivity|]. vm_compute. discriminate.
Qed.
Print Assumptions C93_wrong_source_refuted.

(** Any rounds of the loop, with any signals, packets and errors: they do what turns of the daemon
    do, with nothing but packets of the queue and passes over the chains where something may have
    expired.  The packets get their verdicts in turn: those for this host are dropped, others let
    through. *)
Theorem C93_rounds : forall W exec H G cf fc resolve limit l v w x y, zlen (v_array v) = 1501 ->
  rounds W exec H G cf fc resolve limit l v w = Ok (x, y) ->
  (exists rest, map (fun q => if q_hook q =? 1 then Drop else Accept) (queue_of l) = x ++ rest /\ (forall v' w', y = On v' w' -> rest = [])) /\
  exists ts log, turns W exec H G cf fc resolve ts w = Ok (log, world_after y) /\ Forall (turn_of l) ts.
Proof.
  intros W exec H G cf fc resolve limit l v w x y LA E. destruct (rounds_turns W exec H G cf fc resolve limit l v w x y LA E) as (A & ts & log & B & C & _). split; [exact A|eauto].
Qed.
Print Assumptions C93_rounds.
(** So a rule that is new is a rule that a stanza makes for a packet that came through the queue,
    and that it lets; the rest of the firewall is as before. *)
Theorem C93_trace_partial : forall K H G cf fc resolve limit l v st cs fw fs x y st' cs' fw' fs',
  iptables_ok K -> hashes_ok H -> resolves resolve -> Forall usable (st_acc st) -> firewall_ok fc cs (st_acc st) ->
  zlen (v_array v) = 1501 -> (forall q, comes l q -> 0 <= q_later q < 2147483648) ->
  rounds machine (run_iptables K) H G cf fc resolve limit l v (st, (cs, (fw, fs))) = Ok (x, y) -> world_after y = (st', (cs', (fw', fs'))) ->
  same_rest cs fw fw' /\
  forall t n r, was fw' t n r -> was fw t n r \/ jumps cs t n r \/
    exists acc q data i p e, comes l q /\ seen (q_bytes q) = Ok (Some (data, i)) /\ payload p = data /\ k_info p = i /\
      Forall2 same_stanza (st_acc st) acc /\ authorizes H G cf fc resolve cs (acc, q_env q, p, q_later q) t n r e.
Proof.
  intros K H G cf fc resolve limit l v st cs fw fs x y st' cs' fw' fs' KO HO RO UA FO LA LT E WE.
  destruct (rounds_turns _ _ _ _ _ _ _ _ _ _ _ _ _ LA E) as (_ & ts & log & TS & FA & FB). rewrite WE in TS.
  assert (TO : Forall (turn_ok fc cs) ts).
  { apply Forall_forall. intros t I. rewrite Forall_forall in FA, FB. specialize (FA t I). specialize (FB t I). destruct t; cbn [turn_of turn_ok] in *; try contradiction; [|exact Logic.I].
    split; [exact (FB _ _ _ eq_refl)|]. destruct FA as (q & d & i & C & _ & _ & -> & _). apply LT. exact C. }
  destruct (C78_trace_partial K H G cf fc resolve ts st cs fw fs log st' cs' fw' fs' KO HO RO UA FO TO TS) as (SR & TR). split; [exact SR|].
  intros t n r WS. destruct (TR t n r WS) as [X|[X|(acc & en & p & later & e & I & (given & GV & SS) & AU)]]; auto. right. right.
  rewrite Forall_forall in FA. destruct (FA _ I) as (q & data & i & C & SN & -> & -> & PL & KI). exists acc, q, data, i, p, e.
  repeat (split; [assumption|]). split; [|exact AU]. destruct GV as [<-|RR]; [exact SS|]. apply FA in RR. destruct RR.
Qed.
Print Assumptions C93_trace_partial.

(** After SIGINT, SIGTERM or SIGHUP the loop is left in the first round in which nothing is received. *)
Theorem C93_leaves : forall W exec H G cf fc resolve limit sigs r now l v w x y, (exists g, In g sigs /\ stops g) -> (exists s t, In (s, Nothing, t) ((sigs, r, now) :: l)) ->
  rounds W exec H G cf fc resolve limit ((sigs, r, now) :: l) v w = Ok (x, y) -> forall v' w', y <> On v' w'.
Proof. intros W exec H G cf fc resolve limit sigs r now l v w x y. apply quiet_leaves. Qed.
Print Assumptions C93_leaves.
(** The end of the loop, exactly: after any rounds [l] that did not end it, with less than 4 GB
    received, the next round makes the daemon give up if and only if it is an error and there
    were more than a hundred since nothing was received the last time; and it leaves the loop if
    and only if nothing is received and a signal asked for that, or as many bytes were received
    as the limit of packets says. *)
Theorem C93_ends : forall W exec H G cf fc resolve limit array l w x v1 w1 sigs r now x' y,
  (forall s n ps t, In (s, Got n ps, t) l -> 0 <= n) -> bytes_received l < 4294967296 -> 0 <= limit ->
  rounds W exec H G cf fc resolve limit l (begun array) w = Ok (x, On v1 w1) ->
  rounds W exec H G cf fc resolve limit (l ++ [(sigs, r, now)]) (begun array) w = Ok (x', y) ->
  ((exists v2 w2, y = GaveUp v2 w2) <-> r = Failed /\ 101 <= errors_since l) /\
  ((exists v2 w2, y = Left v2 w2) <-> r = Nothing /\ (told (l ++ [(sigs, r, now)]) \/ 0 < limit <= bytes_received l)).
Proof. intros W exec H G cf fc resolve limit array l w x v1 w1 sigs r now x' y. apply next_round. Qed.
Print Assumptions C93_ends.
(** While something is received in every round the loop goes on, whatever signals come and
    whatever the limit of packets is: whoever sends a packet every half second keeps the daemon
    from ending. *)
Theorem C93_stop_refuted : forall W exec H G cf fc resolve limit l v w x y, busy l ->
  rounds W exec H G cf fc resolve limit l v w = Ok (x, y) -> exists v' w', y = On v' w'.
Proof. intros W exec H G cf fc resolve limit l v w x y. apply busy_going. Qed.
Print Assumptions C93_stop_refuted.
(** No round closes a command cycle: none is ever taken off the list, whatever its time. *)
Theorem C93_cycles_refuted : forall W exec H G cf fc resolve limit l v w x y c, zlen (v_array v) = 1501 ->
  rounds W exec H G cf fc resolve limit l v w = Ok (x, y) -> In c (st_cycles (fst w)) -> In c (st_cycles (fst (world_after y))).
Proof. intros W exec H G cf fc resolve limit l v w x y c. apply rounds_cycles. Qed.
Print Assumptions C93_cycles_refuted.

(** *** Examples *)
Definition array0 : bytes := repeat x07 (Z.to_nat 1501).
Definition queue (limit : Z) (acc : list stanza) (l : list a_round) : outcome (list verdict * progress machine) :=
  rounds machine (run_iptables ipt0) toy nogpg cf0 conf0 (fun _ => None) limit l (begun array0) (start acc, ([chain0], (fw0, []))).
Definition q0 (f : bytes) : queued := mkQ 1 f en0 1700000101.
Definition f0 : bytes := ipv4 5 17 (be16 40000 ++ be16 62201 ++ be16 0 ++ be16 0 ++ d_any).
(** What there is to see: how it ended (0 the loop goes on, 1 left, 2 given up), the rules, the cycles, the verdicts *)
Definition view (o : outcome (list verdict * progress machine)) : option (Z * option (list rule) * list cycle * list verdict) :=
  match o with
  | Ok (x, y) => let '(st, (_, (fw, _))) := world_after y in
      Some (match y with On _ _ => 0 | Left _ _ => 1 | GaveUp _ _ => 2 end, fw ($ "filter") ($ "FWKNOP_INPUT"), st_cycles st, x)
  | Fault => None
  end.
(** A packet is granted; SIGTERM comes with another packet, which still is processed, and the loop
    is left when there is nothing more. *)
Example C93_ex : view (queue 0 [a0] [([], Got 300 [q0 f0], 1700000101); ([M_life.SIGUSR1], Nothing, 1700000102); ([M_life.SIGTERM], Got 300 [mkQ 3 f_foreign en0 1700000103], 1700000103); ([], Nothing, 1700000104)]) =
    Some (1, Some [allow ($ "10.1.1.3") ($ "22") ($ "1700000131")], [], [Drop; Accept]) /\
  view (queue 0 [a0] [([], Got 300 [q0 f0], 1700000101); ([], Nothing, 1700000131)]) = Some (0, Some [], [], [Drop]).
Proof. split; vm_compute; reflexivity. Qed.
(** A cycle whose time was over thirty years ago *)
Example C93_cycles_ex : view (queue 0 [a_cycled] [([], Got 300 [q0 (ipv4 5 17 udp1)], 1700000101); ([], Nothing, 1700001000); ([], Nothing, 2700000000)]) =
  Some (0, Some [], [mkCycle ($ "1.2.3.4") ($ "close 1.2.3.4") 1700000160 1], [Drop]).
Proof. vm_compute. reflexivity. Qed.
Example C93_stop_ex : busy [([M_life.SIGTERM], Got 300 [q0 f0], 1700000101); ([M_life.SIGTERM], Got 300 [q0 f0], 1700000102)] /\
  match view (queue 1 [a0] [([M_life.SIGTERM], Got 300 [q0 f0], 1700000101); ([M_life.SIGTERM], Got 300 [q0 f0], 1700000102)]) with Some (0, _, _, [Drop; Drop]) => true | _ => false end = true.
Proof. split; [intros s r now [E|[E|[]]]; injection E as <- <- <-; eauto|]. vm_compute. reflexivity. Qed.
Example C93_leaves_ex : (exists g, In g [M_life.SIGTERM] /\ stops g) /\ (exists s t, In (s, Nothing, t) [([M_life.SIGTERM], Nothing, 1700000101)]) /\
  match view (queue 0 [a0] [([M_life.SIGTERM], Nothing, 1700000101)]) with Some (1, _, _, []) => true | _ => false end = true.
Proof.
  split; [exists M_life.SIGTERM; split; [left; reflexivity|right; left; reflexivity]|]. split; [exists [M_life.SIGTERM], 1700000101; left; reflexivity|]. vm_compute. reflexivity.
Qed.
Definition errors_of (n : nat) : list a_round := repeat ([], Failed, 1700000101) n.
Example C93_ends_ex :
  match queue 0 [a0] (errors_of 101) with Ok (_, On _ _) => true | _ => false end = true /\
  match queue 0 [a0] (errors_of 101 ++ [([], Failed, 1700000101)]) with Ok (_, GaveUp _ _) => true | _ => false end = true /\
  match queue 0 [a0] ((errors_of 101 ++ [([], Nothing, 1700000101)]) ++ [([], Failed, 1700000101)]) with Ok (_, On _ _) => true | _ => false end = true /\
  match queue 300 [a0] ([([], Got 300 [q0 f0], 1700000101)] ++ [([], Nothing, 1700000102)]) with Ok (_, Left _ _) => true | _ => false end = true /\
  match queue 301 [a0] ([([], Got 300 [q0 f0], 1700000101)] ++ [([], Nothing, 1700000102)]) with Ok (_, On _ _) => true | _ => false end = true.
Proof. repeat split; vm_compute; reflexivity. Qed.
(** The limit of packets counts bytes: with a limit of 200 packets the first one, of which 300
    bytes are received, is the last. *)
Theorem C93_limit_refuted : exists l, match view (queue 200 [a0] l) with Some (1, _, _, [Drop]) => true | _ => false end = true /\ length (queue_of l) = 2%nat.
Proof. exists [([], Got 300 [q0 f0], 1700000101); ([], Nothing, 1700000102); ([], Got 300 [q0 f0], 1700000103)]. split; vm_compute; reflexivity. Qed.
Print Assumptions C93_limit_refuted.
(** The errors that make the daemon give up need not follow each other: a packet in between does
    not start the count anew. *)
Theorem C93_errors_refuted : exists l, match view (queue 0 [a0] l) with Some (2, _, _, _) => true | _ => false end = true /\
  forall i s t, nth_error l i = Some (s, Failed, t) -> forall s' t', nth_error l (S i) <> Some (s', Failed, t').
Proof.
  exists (flat_map (fun _ => [([], Got 10 [], 1700000101); ([], Failed, 1700000101)]) (repeat tt 102)). split; [vm_compute; reflexivity|].
  generalize 102%nat as n. induction n as [|n IH]; intros i s t E s' t' E'; cbn [repeat flat_map app] in *.
  - destruct i; discriminate.
  - destruct i as [|[|i]]; cbn [nth_error] in *; try discriminate; [|eapply IH; eassumption]. destruct n; discriminate.
Qed.
Print Assumptions C93_errors_refuted.
