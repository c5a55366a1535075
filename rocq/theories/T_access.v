(** Access list properties: C25, C26, C38. *)
From Verif Require Import Bytes P_bytes M_util M_message P_util S_text M_access S_access P_access T_codec.
From Coq Require Import Init.Byte List ZArith Bool Lia.
Import ListNotations.
Open Scope Z_scope.

Ltac cnum := split; [discriminate|split; [digits|
  first [left; split; [discriminate|reflexivity] | right; split; [reflexivity|split; [digits|reflexivity]]]]].
Ltac quad a b c d := exists a, b, c, d; split; [reflexivity|];
  split; [cnum|]; split; [cnum|]; split; [cnum|]; split; [cnum|]; repeat split; lia.

(** C25.  An entry that is ANY, an address, an address with a prefix length 1..32 or an
    address with a dotted mask is accepted and matches exactly the addresses it covers; a
    list matches exactly the addresses some entry covers.
    Missing for the full claim: the dotted mask 0.0.0.32 (see C25_mask_refuted). *)
Theorem C25_networks_partial : forall s items Ps,
  listed s items -> Forall2 net_entry items Ps -> Forall (fun it => ~ odd_mask it) items ->
  exists l, expand_acc_int_list s = Some l /\ length l = length items /\
    forall x, addr32 x -> (compare_addr_list l x = true <-> Exists (fun P => P x) Ps).
Proof. exact net_list. Qed.
Print Assumptions C25_networks_partial.

Example C25_ex : exists items Ps,
  listed ($ "10.0.0.0/8, 192.168.1.0/255.255.255.0,any") items /\ Forall2 net_entry items Ps /\
  Forall (fun it => ~ odd_mask it) items.
Proof.
  exists [$ "10.0.0.0/8"; $ "192.168.1.0/255.255.255.0"; $ "any"].
  eexists. split; [|split].
  - exists [$ "10.0.0.0/8"; $ " 192.168.1.0/255.255.255.0"; $ "any"].
    split; [reflexivity|]. split; [discriminate|]. split.
    + repeat constructor; cbn; intuition discriminate.
    + constructor; [|constructor; [|constructor; [|constructor]]].
      * exists []. split; [reflexivity|]. split; [constructor|]. vm_compute. intuition congruence.
      * exists [" "%byte]. split; [reflexivity|]. split; [constructor; [left; reflexivity|constructor]|]. vm_compute. intuition congruence.
      * exists []. split; [reflexivity|]. split; [constructor|]. vm_compute. intuition congruence.
  - constructor; [|constructor; [|constructor; [|constructor]]].
    + apply (NetCidr ($ "10.0.0.0") 10 0 0 0 ($ "8")); [quad ($ "10") ($ "0") ($ "0") ($ "0")|vm_compute; congruence|vm_compute; split; congruence|digits|vm_compute; split; congruence].
    + apply (NetMask ($ "192.168.1.0") 192 168 1 0 ($ "255.255.255.0") 255 255 255 0);
        [quad ($ "192") ($ "168") ($ "1") ($ "0")|vm_compute; congruence|quad ($ "255") ($ "255") ($ "255") ($ "0")|vm_compute; congruence].
    + apply NetAny. reflexivity.
  - repeat constructor; intro O; apply odd_mask_aton in O; vm_compute in O; congruence.
Qed.

(** A dotted mask of 0.0.0.32 is taken for the prefix length 32: the entry should cover
    every address that agrees with it in one bit but covers one address only. *)
Theorem C25_mask_refuted : exists it P e x,
  net_entry it P /\ expand_acc_int_list it = Some [e] /\ addr32 x /\ P x /\ compare_addr_list [e] x = false.
Proof.
  exists ($ "10.0.0.1/0.0.0.32").
  eexists (fun x => forall i, Z.testbit (addr 0 0 0 32) i = true -> Z.testbit x i = Z.testbit (addr 10 0 0 1) i).
  eexists. exists (addr 10 0 0 2). split; [|split; [|split; [|split]]].
  - apply (NetMask ($ "10.0.0.1") 10 0 0 1 ($ "0.0.0.32") 0 0 0 32); try (vm_compute; congruence).
    + quad ($ "10") ($ "0") ($ "0") ($ "1").
    + quad ($ "0") ($ "0") ($ "0") ($ "32").
  - vm_compute. reflexivity.
  - vm_compute. split; congruence.
  - intros i. change (addr 0 0 0 32) with (2 ^ 5). rewrite Z.pow2_bits_eqb by lia.
    destruct (Z.eqb_spec 5 i); [subst; reflexivity|discriminate].
  - vm_compute. reflexivity.
Qed.
Print Assumptions C25_mask_refuted.

(** The prefix length 0 is refused for every address. *)
Theorem C25_prefix_zero_refused : forall ip a b c d, ipv4_text ip a b c d -> zlen ip <= 15 ->
  expand_acc_int_list (ip ++ $ "/0") = None.
Proof. exact cidr_zero_refused. Qed.
Print Assumptions C25_prefix_zero_refused.

(** C26.  If OPEN_PORTS lists no pair twice, a well-formed request is permitted exactly when
    no requested pair is restricted and, if OPEN_PORTS is given, every requested pair is
    open.  Missing for the full claim: OPEN_PORTS with a repeated pair (refuted below). *)
Theorem C26_port_check_partial : forall open restricted s items pl,
  NoDup open -> comma_separated s items ->
  Forall2 (fun it e => port_entry it (fst e) (snd e) /\ zlen it <= 31) items pl ->
  (acc_check_port_access open restricted s = true <->
   (forall p, In p pl -> ~ In p restricted) /\ (open <> [] -> forall p, In p pl -> In p open)).
Proof.
  intros open restricted s items pl ND C H. split.
  - intro E. destruct (port_check _ _ _ E) as (items' & pl' & C' & H' & R & O).
    assert (items' = items).
    { destruct C as (E1 & N1 & F1), C' as (E2 & N2 & F2). apply split_unique; auto. congruence. }
    subst items'. assert (pl' = pl).
    { clear - H H'. revert pl' H'. induction H as [|it [a b] items pl [P L] _ IH]; intros pl' H'; inversion H'; subst; auto.
      match goal with X : _ /\ zlen it <= 31 |- _ => destruct X as [E _] end. apply parse_port_entry in P. cbn [fst snd] in P. unfold add_port_list_ent in E.
      rewrite P in E. inversion E; subst. f_equal. apply IH; auto. }
    subst pl'. split; auto.
  - intros [R O]. eapply port_check_complete; eauto.
Qed.
Print Assumptions C26_port_check_partial.

(** Every validated request (see C05) is a well-formed request in this sense. *)
Theorem C26_validated_requests : forall items, items <> [] -> Forall proto_port items ->
  exists pl, comma_separated (join [","%byte] items) items /\ Forall2 (fun it e => port_entry it (fst e) (snd e) /\ zlen it <= 31) items pl.
Proof.
  intros items N F. assert (X : exists pl, Forall2 (fun it e => port_entry it (fst e) (snd e) /\ zlen it <= 31) items pl).
  { clear N. induction F as [|it items P F [pl IH]]; [exists []; constructor|].
    destruct (proto_port_entry it P) as (e & E). exists (e :: pl). constructor; auto. }
  destruct X as [pl X]. exists pl. split; auto. repeat split; auto.
  clear - F. induction F; constructor; auto. apply P_message.proto_port_no_comma; auto.
Qed.
Print Assumptions C26_validated_requests.

(** Whatever the text, what is permitted consists of listed protocol/port entries none of
    which is restricted. *)
Theorem C26_any_text_partial : forall open restricted s,
  small_numbers s -> acc_check_port_access open restricted s = true ->
  exists items pl, comma_separated s items /\ Forall2 (fun it e => port_entry it (fst e) (snd e)) items pl /\ (forall p, In p pl -> ~ In p restricted) /\ (open <> [] -> NoDup open -> forall p, In p pl -> In p open).
Proof.
  intros open restricted s SM E. destruct (port_check _ _ _ E) as (items & pl & C & H & R & O).
  exists items, pl. split; auto. split; auto. apply port_entries_sound.
  - apply (small_numbers_part s); auto. destruct C; auto.
  - clear - H. induction H as [|it e items pl [E L] _ IH]; constructor; auto. unfold req_one, ACCESS_BUF_LEN.
    replace (zlen it + 1 >=? 33) with false by lia. auto.
Qed.
Print Assumptions C26_any_text_partial.

Example C26_ex : exists items pl,
  NoDup [(6, 22); (6, 80)] /\ comma_separated ($ "tcp/22,tcp/80") items /\
  Forall2 (fun it e => port_entry it (fst e) (snd e) /\ zlen it <= 31) items pl /\
  acc_check_port_access [(6, 22); (6, 80)] [(17, 53)] ($ "tcp/22,tcp/80") = true /\
  acc_check_port_access [(6, 22); (6, 80)] [(17, 53)] ($ "tcp/22,tcp/81") = false /\
  acc_check_port_access [] [(17, 53)] ($ "udp/53") = false.
Proof.
  exists [$ "tcp/22"; $ "tcp/80"].
  destruct (C26_validated_requests [$ "tcp/22"; $ "tcp/80"]) as (pl & C & H).
  - discriminate.
  - constructor; [|constructor; [|constructor]].
    + exists ($ "tcp"), ($ "22"). split; [left; reflexivity|]. split; [reflexivity|].
      split; [vm_compute; split; congruence|]. split; [digits|]. vm_compute; split; congruence.
    + exists ($ "tcp"), ($ "80"). split; [left; reflexivity|]. split; [reflexivity|].
      split; [vm_compute; split; congruence|]. split; [digits|]. vm_compute; split; congruence.
  - exists pl. split; [repeat constructor; cbn; intuition congruence|]. split; [exact C|]. split; [exact H|].
    split; [vm_compute; reflexivity|]. split; vm_compute; reflexivity.
Qed.

(** With OPEN_PORTS tcp/22, tcp/22 a request for tcp/22 and tcp/80 is permitted, and one
    for tcp/22 alone is denied: matches are counted, not checked one by one. *)
Theorem C26_duplicates_refuted : exists cfg open,
  expand_acc_port_list cfg = Some open /\ ~ In (6, 80) open /\ In (6, 22) open /\
  acc_check_port_access open [] ($ "tcp/22,tcp/80") = true /\
  acc_check_port_access open [] ($ "tcp/22") = false.
Proof.
  exists ($ "tcp/22, tcp/22"). eexists. split; [vm_compute; reflexivity|].
  split; [cbn; intuition congruence|]. split; [cbn; auto|]. split; vm_compute; reflexivity.
Qed.
Print Assumptions C26_duplicates_refuted.

(** C38.  Every text lists a unique sequence of items. *)
Theorem C38_items_exist : forall s, exists items, listed s items /\ items <> [] /\
  forall items', listed s items' -> items' = items.
Proof.
  intro s. destruct (listed_total s) as (items & L & N). exists items. split; auto. split; auto.
  intros items' L'. eapply listed_functional; eauto.
Qed.
Print Assumptions C38_items_exist.

(** String lists: exactly the items, in order; refused only if an item is longer than 1022. *)
Theorem C38_string_list : forall s l,
  expand_acc_string_list s = Some l <-> listed s l /\ Forall (fun it => zlen it <= 1022) l.
Proof. exact expand_string_list_iff. Qed.
Print Assumptions C38_string_list.

(** Port lists: exactly the listed pairs, in order; everything else is refused.
    Missing for the full claim: numbers beyond the range of an int (refuted below). *)
Theorem C38_port_list_partial : forall s pl, small_numbers s ->
  (expand_acc_port_list s = Some pl <->
   exists items, listed s items /\
     Forall2 (fun it e => port_entry it (fst e) (snd e) /\ zlen it <= 31) items pl).
Proof.
  intros s pl SM. split; [apply expand_port_list_inv; auto|].
  intros (items & L & H). eapply expand_port_list_ok; eauto.
Qed.
Print Assumptions C38_port_list_partial.

Theorem C38_big_port_refuted :
  expand_acc_port_list ($ "tcp/4294967318") = Some [(6, 22)].
Proof. vm_compute. reflexivity. Qed.
Print Assumptions C38_big_port_refuted.

(** Address lists: an accepted list has one entry per item, each the entry of that item
    alone, in order; a refused list contains an item that alone is refused. *)
Theorem C38_address_list : forall s items, listed s items ->
  (forall l, expand_acc_int_list s = Some l <->
     Forall2 (fun it e => expand_acc_int_list it = Some [e]) items l) /\
  (expand_acc_int_list s = None <-> exists it, In it items /\ expand_acc_int_list it = None).
Proof.
  intros s items L. split.
  - intro l. split.
    + intro E. apply (expand_listed ACCESS_BUF_LEN add_int_ent s l) in E. destruct E as (items' & L' & H).
      rewrite (listed_functional _ _ _ L' L) in H. exact H.
    + intro H. apply (expand_listed ACCESS_BUF_LEN add_int_ent s l). exists items. auto.
  - apply (expand_refused ACCESS_BUF_LEN add_int_ent s items L).
Qed.
Print Assumptions C38_address_list.

Example C38_ex :
  expand_acc_string_list ($ "a, bc ,,d") = Some [$ "a"; $ "bc "; []; $ "d"] /\
  expand_acc_port_list ($ "tcp/22, UDP/53") = Some [(6, 22); (17, 53)] /\
  expand_acc_port_list ($ "tcp/22,,udp/53") = None /\
  expand_acc_int_list ($ "1.2.3.4, 10.0.0.0/8") =
    Some [mknet 16909060 4294967295; mknet 167772160 4278190080].
Proof. repeat split; vm_compute; reflexivity. Qed.

Example C38_small_ex : small_numbers ($ "tcp/22").
Proof. apply small_numbers_short. vm_compute. congruence. Qed.
