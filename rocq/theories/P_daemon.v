(** From what a stanza lets a packet do to the rules made for it. *)
From Verif Require Import Bytes M_util M_message M_codec M_cipher M_ctx M_access M_replay M_cycle M_incoming M_packet M_fw M_fwinit M_daemon
  S_base64 S_text S_codec S_cipher S_ctx S_access S_replay S_cycle S_incoming S_fw S_fwinit S_daemon
  P_bytes P_util P_util2 P_access P_replay P_incoming P_incoming2 P_incoming3 P_incoming4 P_incoming5 P_incoming8
  P_fw P_fw2 P_fw3 P_fw4 P_fw5 P_fw6 P_fw7 P_fw8 P_fw9 P_fw10 P_fwinit P_fwinit2.
From Verif Require T_access.
From Coq Require Import Init.Byte List ZArith Bool Lia.
Import ListNotations.
Open Scope Z_scope.

Lemma text_address s i : text_of_addr s i -> word s /\ zlen s <= 15.
Proof.
  intros (a & b & c & d & T & L & _). split; [|exact L]. pose proof (address_chars _ _ _ _ _ T) as F. split.
  - intros ->. destruct T as (A & B & C & D & E & _). destruct A; discriminate.
  - eapply Forall_impl; [|exact F]. intros x [Q| ->]; [now apply digit_not_blank|apply dot_char].
Qed.
Lemma dotted_word s x : dotted s x -> word s /\ zlen s <= 15.
Proof.
  intros D. rewrite (dotted_unique _ _ D). destruct (ntop_text x) as [F L]. split; [|lia]. split; [intros E; rewrite E, zlen_nil in L; lia|].
  eapply Forall_impl; [|exact F]. intros c (N1 & N2). split; [|exact N2]. intros B. rewrite <- isspace_blank in B. congruence.
Qed.
Lemma forwarded_word cf p fwd : forwarded_read cf p fwd -> fwd = [] \/ (word fwd /\ zlen fwd <= 15).
Proof.
  intros [[(A & _)|(-> & _)]|(c & v & _ & [(-> & A)|(-> & _)])]; auto; right; (split; [apply address_word; exact A|destruct A; lia]).
Qed.

(** The ports of a message are a list of entries, which the stanza permits. *)
Lemma ports_requested a m d p fwd : received m -> asks a p fwd m d -> s_type m <> 0 -> ports_allowed a (d_remain d) ->
  exists pl, requested (d_remain d) pl /\ Forall (permitted a) pl.
Proof.
  intros R AS T (items' & pl' & CS' & F2' & A & B). destruct (received_split m R) as (ip & rest & E & _ & NC & _ & _ & _ & IT).
  destruct (IT T) as (items & NI & F & Q). destruct (as_split _ _ _ _ _ AS) as (E' & i & x & y & z & w & TX & _).
  assert (D : d_remain d = rest). { symmetry. apply (cut_at ip rest (d_src d) (d_remain d)); [auto|eapply ip_comma; eauto|congruence]. }
  rewrite D, Q in *. destruct (T_access.C26_validated_requests items NI F) as (pl & CS & F2).
  assert (EI : items' = items). { destruct CS as (E1 & N1 & F1), CS' as (E2 & N2 & F3). apply split_unique; auto; congruence. }
  subst items'. assert (EP : pl' = pl).
  { clear -F2 F2'. revert pl' F2'. induction F2 as [|it [u v] items pl [P L] _ IH]; intros pl' F2'; inversion F2'; subst; auto.
    match goal with X : port_entry it (fst ?q) _ |- _ => destruct q as [u' v'] end. cbn [fst snd] in *.
    match goal with X : port_entry it u' v' |- _ => destruct (port_entry_unique _ _ _ _ _ P X) as [-> ->] end. f_equal; auto. }
  subst pl'. exists pl. split.
  - exists items. split; [|exact F2]. destruct CS as (E1 & N1 & F1). exists items. split; [exact E1|]. split; [exact N1|]. split; [exact F1|].
    clear - F2. induction F2 as [|it e l l' [P _] _ IH]; constructor; auto. exists []. split; [reflexivity|]. split; [constructor|].
    destruct P as (q & ds & -> & _ & [[Q _]|[Q _]] & _); destruct q as [|c q]; try discriminate; cbn [hd app]; intros BL.
    + cbn [lower map] in Q. injection Q as Q _. revert BL Q. clear. rewrite <- isspace_blank. destruct c; vm_compute; discriminate.
    + cbn [lower map] in Q. injection Q as Q _. revert BL Q. clear. rewrite <- isspace_blank. destruct c; vm_compute; discriminate.
  - apply Forall_forall. intros q I. split; [now apply A|]. intros NE. now apply B.
Qed.

(** What is granted is fit for the firewall. *)
Record fit_request (a : stanza) (d : spa_data) : Prop := {
  fr_use : word (d_use d) /\ zlen (d_use d) <= 15;
  fr_dst : word (d_pkt_dst d) /\ zlen (d_pkt_dst d) <= 15;
  fr_time : 0 <= d_timeout d < 1073741824;
  fr_ports : exists pl, requested (d_remain d) pl /\ Forall (permitted a) pl;
  fr_nat : match d_nat d with Some n => nat_request n | None => ~ (local_nat (d_type d) \/ d_type d = 2 \/ d_type d = 4) end }.

Lemma granted_fit H G cf now p fwd data a k k' d : usable a -> forwarded_read cf p fwd -> lets H G cf now p fwd data a k (Grant k' d) -> fit_request a d.
Proof.
  intros (_ & _ & T1 & T2 & _) FW (_ & _ & m & d' & _ & R & _ & AS & MY). cbn [may] in MY. destruct MY as (_ & <- & _ & TY & _ & PA).
  pose proof (as_split _ _ _ _ _ AS) as (_ & i & TX). constructor.
  - destruct (as_use _ _ _ _ _ AS) as [(_ & ->)|(_ & _ & [(N & ->)|(_ & ->)])].
    + eapply text_address; eauto.
    + destruct (forwarded_word _ _ _ FW); [congruence|auto].
    + eapply dotted_word. apply (as_pkt_src _ _ _ _ _ AS).
  - eapply dotted_word. apply (as_pkt_dst _ _ _ _ _ AS).
  - pose proof (rc_timeout m R) as (B & _). destruct (as_timeout _ _ _ _ _ AS) as [(P & ->)|[(_ & P & ->)|(_ & _ & ->)]]; try lia.
    rewrite u32_small by lia. lia.
  - eapply ports_requested; eauto.
  - rewrite (as_nat _ _ _ _ _ AS), (as_type _ _ _ _ _ AS). pose proof (rc_nat m R) as N. destruct (s_nat m).
    + apply N.
    + intros Q. apply N. unfold nat_type, local_nat in *. tauto.
Qed.

Lemma classic_nat nc ty : wants_nat nc ty \/ ~ wants_nat nc ty.
Proof.
  unfold wants_nat, local_nat. destruct (Z.eq_dec ty 5); [tauto|]. destruct (Z.eq_dec ty 6); [tauto|]. destruct (Z.eq_dec ty 2); [tauto|].
  destruct (Z.eq_dec ty 4); [tauto|]. destruct (n_force nc); [tauto|]. right. intros [[|]|[|[|]]]; congruence.
Qed.

Section Request.
Variable K : iptables.
Hypothesis KO : iptables_ok K.
Variable fc : fwconf.
Variable resolve : bytes -> option bytes.
Hypothesis RO : resolves resolve.
Notation run := (run_iptables K).
Variable cs : list chain.
Variable a : stanza.
Variable d : spa_data.
Variable now : Z.
Hypothesis UA : usable a.
Hypothesis FO : fitting (f_cmd fc) cs.
Hypothesis SI : zlen (f_snat_ip fc) <= 15.
Hypothesis U0 : in_use (chain_at 0 cs).
Hypothesis U45 : n_snat (a_nat a) || f_snat fc = true -> in_use (chain_at 4 cs) /\ in_use (chain_at 5 cs).
Hypothesis FR : fit_request a d.
Hypothesis TM : 0 <= now < 2147483648.

Lemma nat_address_target ip to : wants_nat (a_nat a) (d_type d) ->
  nat_address fc resolve (a_nat a) (match d_nat d with Some n => n | None => [] end) = Ok (Some (ip, to)) ->
  word ip /\ zlen ip <= 15 /\ 0 <= to <= 65535 /\ nat_target fc resolve (a_nat a) (match d_nat d with Some n => n | None => [] end) ip to.
Proof.
  intros WN Q. unfold nat_address in Q. unfold nat_target. destruct UA as (_ & _ & _ & _ & _ & UF). destruct (n_force (a_nat a)) eqn:NF.
  - destruct (UF eq_refl) as (A & P). injection Q as <- <-. destruct A as (L & A). rewrite ztake_all by (unfold MAX_IPV4_STR_LEN; lia).
    split; [now apply address_word|]. split; [lia|]. split; [exact P|]. auto.
  - pose proof (fr_nat _ _ FR) as N. destruct (d_nat d) as [n|].
    2:{ exfalso. apply N. destruct WN as [W|[W|[W|W]]]; auto; congruence. }
    destruct N as (host & q & -> & LH & NH & LQ & DQ & RQ).
    assert (NC : ~ In ","%byte host). { intros I. apply (NH _ I). cbn. tauto. }
    assert (IX : index_of ","%byte (host ++ [","%byte] ++ q) = Some (List.length host)) by (apply index_of_app; auto).
    rewrite IX in Q. cbv zeta in Q. rewrite firstn_app, Nat.sub_diag, firstn_all in Q. cbn [firstn] in Q. rewrite app_nil_r in Q.
    destruct (zlen host <=? MAX_HOSTNAME_LEN); cbn [negb] in Q; [|discriminate]. destruct (zlen host + 1 >? MAX_HOSTNAME_LEN); [discriminate|].
    replace (skipn (S (List.length host)) (host ++ [","%byte] ++ q)) with q in Q.
    2:{ replace (S (List.length host)) with (List.length (host ++ [","%byte])) by (rewrite app_length; cbn; lia).
        rewrite app_assoc, skipn_app, Nat.sub_diag, skipn_all. reflexivity. }
    assert (SQ : strtol_wrapper q 0 MAX_PORT = (decimal q, STRTOL_OK)).
    { rewrite (strtol_wrapper_digits q 0 MAX_PORT); auto; unfold MAX_PORT; try lia. }
    assert (IP : exists g, (if is_valid_ipv4_addr host (zlen host) then Ok (Some (ztake (MAX_IPV4_STR_LEN - 1) host))
              else if f_nat_dns fc then get v <- is_valid_hostname host (zlen host); Ok (if v then resolve host else None) else Ok None) = Ok (Some g) /\
              g = ip /\ to = decimal q).
    { destruct (if is_valid_ipv4_addr host (zlen host) then _ else _) as [[g|]|]; cbn [bind] in Q; try discriminate.
      rewrite SQ in Q. cbn [strtol_ok] in Q. injection Q as <- <-. eauto. }
    destruct IP as (g & IP & -> & ->). destruct (is_valid_ipv4_addr host (zlen host)) eqn:V.
    + injection IP as <-. change (MAX_IPV4_STR_LEN - 1) with 15. pose proof (zlen_nonneg host). apply is_valid_ipv4_iff in V; [|lia]. rewrite ztake_all in V by lia.
      destruct V as (L & a1 & b1 & c1 & d1 & V). split; [|split; [|split; [lia|]]].
      * pose proof (address_chars _ _ _ _ _ V) as F. split.
        -- intros E. assert (X : zlen (ztake 15 host) = 0) by now rewrite E. unfold zlen, ztake in X, L. rewrite firstn_length in X. lia.
        -- eapply Forall_impl; [|exact (proj1 (proj1 (Forall_app _ (ztake 15 host) (zdrop 15 host)) (eq_rect_r _ F (ztake_zdrop 15 host))))]. intros x [D| ->]; [now apply digit_not_blank|apply dot_char].
      * unfold zlen, ztake. rewrite firstn_length. lia.
      * exists host, q. split; [reflexivity|]. split; [exact DQ|]. split; [reflexivity|]. left. eauto 6.
    + destruct (f_nat_dns fc) eqn:ND; [|discriminate]. destruct (is_valid_hostname host (zlen host)) as [[]|]; cbn [bind] in IP; try discriminate.
      injection IP as IP. pose proof (RO _ _ IP) as A. split; [now apply address_word|]. split; [destruct A; lia|]. split; [lia|].
      exists host, q. auto 7.
Qed.

Theorem request_added (fw : firewall) fs cs' fw' fs' :
  process_spa_request machine run fc resolve (a_nat a) d now (cs, (fw, fs)) = Ok (cs', (fw', fs')) ->
  Forall2 same_names cs cs' /\ grown (any_chain cs) (fun t n r => jumps cs t n r \/ rule_for fc resolve cs a d now t n r) fw fw'.
Proof.
  intros Q. destruct FR as [[W1 L1] [W2 L2] HT (pl & RQ & PM) FN]. assert (HE : 0 <= now + d_timeout d < 4294967296) by lia.
  destruct (classic_nat (a_nat a) (d_type d)) as [WN|WN].
  - destruct (nat_address fc resolve (a_nat a) (match d_nat d with Some n => n | None => [] end)) as [[[ip to]|]|] eqn:NA.
    + destruct (nat_address_target ip to WN NA) as (AT & AL & TR & NT). destruct pl as [|[proto port] pl]; [exfalso; destruct (entries_ok _ _ RQ); congruence|].
      destruct (spa_nat_at K KO fc resolve (a_nat a) d now W1 L1 W2 L2 HE pl proto port ip to cs fw fs WN RQ AT AL TR NA)
        as (i & how & cs1 & fw1 & fs1 & SH & R & N & GR & _); auto.
      { intros _. now apply fit_used. } { intros j _. now apply fit_at. } { intros X j [->| ->]; apply fit_used; auto; apply U45; exact X. } { apply UA. }
      rewrite R in Q. injection Q as <- <- <-. split; [exact N|]. revert GR. apply grown_impl; [auto|].
      assert (WC : forall j Q t n r, within (chain_at j cs) Q t n r -> jumps cs t n r \/ (is_chain (chain_at j cs) t n /\ Q r)).
      { intros j P t n r (T & [J|(-> & -> & X)]); [left; eapply jump_own; eauto|right]. repeat split; auto. }
      intros t n r X. assert (Y : jumps cs t n r \/
        ((local_nat (d_type d) /\ is_chain (chain_at 0 cs) t n /\ opens (d_use d) (if f_use_dst fc then d_pkt_dst d else $ "0.0.0.0/0") proto to (now + d_timeout d) (c_target (chain_at 0 cs)) r) \/
         (~ local_nat (d_type d) /\ is_chain (chain_at 2 cs) t n /\ forwards (n_forward_all (a_nat a)) (d_use d) proto to (now + d_timeout d) (c_target (chain_at 2 cs)) r) \/
         (n_no_dnat (a_nat a) = false /\ is_chain (chain_at 3 cs) t n /\
            redirects (n_forward_all (a_nat a)) (d_use d) (if f_use_dst fc then d_pkt_dst d else $ "0.0.0.0/0") proto port (now + d_timeout d) (c_target (chain_at 3 cs)) ip to r) \/
         (n_snat (a_nat a) || f_snat fc = true /\ is_chain (chain_at i cs) t n /\
            translates (n_forward_all (a_nat a)) (d_use d) proto ip to (now + d_timeout d) (c_target (chain_at i cs)) how r))).
      { destruct X as [(C & X)|[(C & X)|[(C & X)|(C & X)]]]; (destruct (WC _ _ _ _ _ X) as [J|(J & P)]; [left; exact J|right]); tauto. }
      destruct Y as [J|Y]; [auto|right]. exists ((proto, port) :: pl). split; [exact RQ|]. split; [exact PM|]. right. split; [exact WN|].
      exists proto, port, pl, ip, to, i, how. split; [reflexivity|]. split; [exact NT|]. split; [exact SH|exact Y].
    + unfold process_spa_request in Q. destruct RQ as (items & LI & F2). rewrite (expand_port_list_ok _ _ _ LI F2) in Q.
      destruct pl as [|[p q] pl]; [injection Q as <- <- <-; split; [apply names_refl|apply grown_refl]|]. cbv zeta in Q.
      rewrite (proj1 (wants_nat_iff _ _ now HE) WN) in Q. rewrite NA in Q. cbn [bind] in Q. injection Q as <- <- <-. split; [apply names_refl|apply grown_refl].
    + unfold process_spa_request in Q. destruct RQ as (items & LI & F2). rewrite (expand_port_list_ok _ _ _ LI F2) in Q.
      destruct pl as [|[p q] pl]; [injection Q as <- <- <-; split; [apply names_refl|apply grown_refl]|]. cbv zeta in Q.
      rewrite (proj1 (wants_nat_iff _ _ now HE) WN) in Q. rewrite NA in Q. discriminate.
  - destruct (spa_access K KO fc resolve (a_nat a) d now W1 L1 W2 L2 HE _ cs fw fs WN RQ) as (cs1 & fw1 & fs1 & R & N & GR & _).
    { now apply fit_used. } { now apply fit_at. }
    assert (T0 : c_to (chain_at 0 cs) <> []) by (destruct (fit_used fc cs 0 FO U0) as (_ & _ & _ & (X & _) & _); exact X).
    rewrite R in Q. injection Q as <- <- <-. split; [exact N|]. revert GR. apply grown_impl.
    + intros t n [X|X]; [exists 0%nat|exists 1%nat]; exact X.
    + intros t n r [X|[(X & Y)|(p & q & I & X)]]; [left|left|right].
      * eapply jump_own; eauto.
      * eapply jump_own; eauto.
      * exists pl. split; [exact RQ|]. split; [exact PM|]. left. split; [exact WN|]. exists p, q. auto.
Qed.
End Request.
