(** Proofs about the message validators of lib/fko_message.c and lib/fko_user.c. *)
From Verif Require Import P_bytes M_util M_message S_text P_util.
From Coq Require Import Init.Byte List ZArith Lia Bool.
Import ListNotations.
Open Scope Z_scope.

Notation comma := ","%byte.

Lemma comma_not_ip c : c = "."%byte \/ digit c -> c <> comma.
Proof. intros [->|H] E; [discriminate|subst]. unfold digit in H. change (bv comma) with 44 in H. lia. Qed.
Lemma digit_not_comma c : digit c -> c <> comma.
Proof. intro; apply comma_not_ip; auto. Qed.

(** [have_allow_ip] *)
Lemma allow_ip_scan_spec s : forall acc r, allow_ip_scan s acc = Some r ->
  exists p q, s = p ++ q /\ r = acc ++ p /\ Forall (fun c => c = "."%byte \/ digit c) p /\
   (q = [] \/ exists u, q = comma :: u) /\ (p <> [] -> zlen r < 16).
Proof.
  induction s as [|c s IH]; intros acc r H; cbn [allow_ip_scan] in H.
  - inversion H; subst. exists [], []. rewrite !app_nil_r. repeat split; auto; try congruence; try constructor.
  - destruct (beq_spec c comma) as [->|N].
    + inversion H; subst. exists [], (comma :: s). rewrite !app_nil_r. repeat split; eauto; try congruence; try constructor.
    + unfold MAX_IPV4_STR_LEN in H. destruct (zlen (acc ++ [c]) >=? 16) eqn:L; [discriminate|].
      destruct (beq c "."%byte || isdigit c) eqn:C; [|discriminate].
      assert (CC : c = "."%byte \/ digit c).
      { apply orb_true_iff in C. rewrite beq_eq, isdigit_digit in C. auto. }
      destruct (IH _ _ H) as (p & q & -> & -> & F & Q & Z). exists (c :: p), q.
      rewrite <- app_assoc. cbn [app]. split; [auto|]. split; [auto|]. split; [auto|].
      split; [auto|]. intros _. destruct p as [|x p].
      * lia.
      * rewrite <- app_assoc in Z. apply Z. discriminate.
Qed.

Lemma allow_ip_scan_ok p : forall acc q, Forall (fun c => c = "."%byte \/ digit c) p ->
  (q = [] \/ exists u, q = comma :: u) -> zlen acc + zlen p < 16 ->
  allow_ip_scan (p ++ q) acc = Some (acc ++ p).
Proof.
  induction p as [|c p IH]; intros acc q F Q L.
  - rewrite app_nil_r. cbn [app]. destruct Q as [->|[u ->]]; [reflexivity|].
    cbn [allow_ip_scan]. rewrite beq_refl. reflexivity.
  - inversion F; subst. cbn [app allow_ip_scan].
    pose proof (comma_not_ip c H1) as NC. apply beq_neq in NC. rewrite NC.
    rewrite zlen_cons in L. pose proof (zlen_nonneg p).
    assert (Z1 : zlen (acc ++ [c]) = zlen acc + 1) by (rewrite zlen_app; reflexivity).
    unfold MAX_IPV4_STR_LEN. rewrite Z1. destruct (zlen acc + 1 >=? 16) eqn:E; [lia|].
    assert (CC : beq c "."%byte || isdigit c = true).
    { apply orb_true_iff. rewrite beq_eq, isdigit_digit. auto. }
    rewrite CC, IH; auto; [|lia]. rewrite <- app_assoc. reflexivity.
Qed.

Lemma ipv4_text_len s a b c d : ipv4_text s a b c d -> 7 <= zlen s.
Proof.
  intros (A & B & C & D & -> & (NA & _) & (NB & _) & (NC & _) & (ND & _) & _).
  rewrite !zlen_app. change (zlen ["."%byte]) with 1.
  assert (X : forall l : bytes, l <> [] -> 1 <= zlen l).
  { intros [|x l] ?; [congruence|]. rewrite zlen_cons. pose proof (zlen_nonneg l). lia. }
  apply X in NA, NB, NC, ND. lia.
Qed.

Lemma have_allow_ip_iff msg : have_allow_ip msg = true <->
  exists ip q a b c d, msg = ip ++ q /\ (q = [] \/ exists u, q = comma :: u) /\
    ipv4_text ip a b c d /\ zlen ip <= 15.
Proof.
  unfold have_allow_ip. split.
  - destruct (allow_ip_scan msg []) as [ip|] eqn:E; [|discriminate]. intro V.
    apply allow_ip_scan_spec in E. destruct E as (p & q & -> & E & F & Q & L). cbn [app] in E. subst p.
    apply is_valid_ipv4_iff in V; [|pose proof (zlen_nonneg ip); lia].
    destruct V as (L2 & a & b & c & d & T). rewrite ztake_all in T by lia.
    exists ip, q, a, b, c, d. split; auto. split; auto. split; auto.
    assert (ip <> []) by (intros ->; change (zlen (@nil byte)) with 0 in L2; lia).
    specialize (L H). lia.
  - intros (ip & q & a & b & c & d & -> & Q & T & L).
    rewrite allow_ip_scan_ok; auto.
    + cbn [app]. apply is_valid_ipv4_iff; [pose proof (zlen_nonneg ip); lia|].
      rewrite ztake_all by lia. apply ipv4_text_len in T as L7. split; [lia|]. eauto.
    + eapply ipv4_text_chars; eauto.
    + change (zlen (@nil byte)) with 0. lia.
Qed.

(** [have_port] *)
Lemma port_scan_spec s : forall acc r, port_scan s acc = Some r ->
  exists p q, s = p ++ q /\ r = acc ++ p /\ all_digits p /\ (q = [] \/ exists u, q = comma :: u) /\
   (p <> [] -> zlen r <= 5).
Proof.
  induction s as [|c s IH]; intros acc r H; cbn [port_scan] in H.
  - inversion H; subst. exists [], []. rewrite !app_nil_r. repeat split; auto; try congruence; try constructor.
  - destruct (beq_spec c comma) as [->|N].
    + inversion H; subst. exists [], (comma :: s). rewrite !app_nil_r. repeat split; eauto; try congruence; try constructor.
    + destruct (isdigit c) eqn:D; [|discriminate]. cbn [negb orb] in H.
      unfold MAX_PORT_STR_LEN in H. destruct (zlen acc + 1 >? 5) eqn:L; [discriminate|].
      apply isdigit_digit in D.
      destruct (IH _ _ H) as (p & q & -> & -> & F & Q & Z). exists (c :: p), q.
      rewrite <- app_assoc. cbn [app]. split; [auto|]. split; [auto|]. split; [constructor; auto|].
      split; [auto|]. intros _. destruct p as [|x p].
      * rewrite zlen_app. change (zlen [c]) with 1. lia.
      * rewrite <- app_assoc in Z. apply Z. discriminate.
Qed.

Lemma port_scan_ok p : forall acc q, all_digits p -> (q = [] \/ exists u, q = comma :: u) ->
  zlen acc + zlen p <= 5 -> port_scan (p ++ q) acc = Some (acc ++ p).
Proof.
  induction p as [|c p IH]; intros acc q F Q L.
  - rewrite app_nil_r. cbn [app]. destruct Q as [->|[u ->]]; [reflexivity|].
    cbn [port_scan]. rewrite beq_refl. reflexivity.
  - inversion F; subst. cbn [app port_scan].
    pose proof (digit_not_comma c H1) as NC. apply beq_neq in NC. rewrite NC.
    apply isdigit_digit in H1. rewrite H1. cbn [negb orb].
    rewrite zlen_cons in L. pose proof (zlen_nonneg p). unfold MAX_PORT_STR_LEN.
    destruct (zlen acc + 1 >? 5) eqn:E; [lia|].
    rewrite IH; auto.
    + rewrite <- app_assoc. reflexivity.
    + rewrite zlen_app. change (zlen [c]) with 1. lia.
Qed.

Definition port_text (ds : bytes) : Prop :=
  1 <= zlen ds <= 5 /\ all_digits ds /\ 1 <= decimal ds <= 65535.

Lemma have_port_iff s : have_port s = true <->
  zlen s < 256 /\ exists p q, s = p ++ q /\ (q = [] \/ exists u, q = comma :: u) /\ port_text p.
Proof.
  unfold have_port, strnlen, MAX_SPA_MESSAGE_SIZE, port_text. split.
  - destruct (Z.min (zlen s) 256 =? 256) eqn:E; [discriminate|].
    destruct s as [|c s]; [discriminate|]. destruct (isdigit c) eqn:D; [|discriminate]. cbn [negb].
    destruct (port_scan (c :: s) []) as [r|] eqn:P; [|discriminate]. intro H. split; [lia|].
    apply port_scan_spec in P. destruct P as (p & q & E2 & -> & F & Q & L). cbn [app] in *.
    assert (NP : p <> []).
    { intros ->. cbn [app] in E2. destruct Q as [->|[u ->]]; [discriminate|]. inversion E2; subst. discriminate. }
    specialize (L NP). exists p, q. split; [auto|]. split; [auto|].
    assert (1 <= zlen p). { destruct p; [congruence|]. rewrite zlen_cons. pose proof (zlen_nonneg p). lia. }
    split; [lia|]. split; [auto|].
    destruct (strtol_wrapper p 1 MAX_PORT) as [v e] eqn:SW. cbn [snd] in H. destruct e; try discriminate.
    apply strtol_wrapper_digits_inv in SW; auto; [|lia]. unfold MAX_PORT in SW. lia.
  - intros (L & p & q & -> & Q & (L1 & F & B)).
    destruct (Z.min (zlen (p ++ q)) 256 =? 256) eqn:E; [lia|].
    destruct p as [|c p]; [change (zlen (@nil byte)) with 0 in L1; lia|].
    assert (D : isdigit c = true) by (apply isdigit_digit; inversion F; auto).
    cbn [app]. rewrite D. cbn [negb]. change (c :: p ++ q) with ((c :: p) ++ q).
    rewrite port_scan_ok; auto; [|change (zlen (@nil byte)) with 0; lia]. cbn [app].
    rewrite strtol_wrapper_digits; unfold MAX_PORT; auto; lia.
Qed.

(** [validate_proto_port_spec] *)
Lemma index_of_slash_tcp p t : (p = $ "tcp" \/ p = $ "udp") ->
  index_of "/"%byte (p ++ t) = match index_of "/"%byte t with Some i => Some (3 + i)%nat | None => None end.
Proof. intros [->| ->]; cbn; destruct (index_of "/"%byte t); reflexivity. Qed.

Lemma proto_spec_iff s : validate_proto_port_spec s = true <->
  zlen s < 256 /\ exists it q, s = it ++ q /\ (q = [] \/ exists u, q = comma :: u) /\ proto_port it.
Proof.
  unfold validate_proto_port_spec, strnlen, MAX_SPA_MESSAGE_SIZE, starts_with, MAX_PROTO_STR_LEN. split.
  - destruct (Z.min (zlen s) 256 =? 256) eqn:E; [discriminate|].
    assert (X : forall p, (p = $ "tcp" \/ p = $ "udp") -> is_prefix p s = true ->
      match index_of "/"%byte s with
       | None => false
       | Some i => if 1 + Z.of_nat i >? 4 then false else have_port (skipn (S i) s)
      end = true -> zlen s < 256 /\ exists it q, s = it ++ q /\ (q = [] \/ exists u, q = comma :: u) /\ proto_port it).
    { intros p P PR H. apply is_prefix_app in PR. destruct PR as [t ->].
      rewrite index_of_slash_tcp in H by auto.
      destruct (index_of "/"%byte t) as [i|] eqn:I; [|discriminate].
      destruct (1 + Z.of_nat (3 + i) >? 4) eqn:G; [discriminate|].
      assert (i = 0%nat) by lia. subst i.
      apply index_of_Some in I. destruct I as (a & b & -> & La & _). destruct a; [|discriminate].
      assert (SK : skipn (S (3 + 0)) (p ++ [] ++ "/"%byte :: b) = b) by (destruct P as [->| ->]; reflexivity).
      rewrite SK in H. apply have_port_iff in H. destruct H as (_ & ds & q & -> & Q & PT).
      split; [lia|]. exists (p ++ ["/"%byte] ++ ds), q. split; [rewrite <- !app_assoc; reflexivity|].
      split; auto. exists p, ds. destruct PT as (?&?&?). repeat split; auto; lia. }
    destruct (is_prefix ($ "tcp") s) eqn:P1; [intro H; apply (X ($ "tcp")); auto|].
    destruct (is_prefix ($ "udp") s) eqn:P2; [intro H; apply (X ($ "udp")); auto|].
    cbn [negb andb].
    assert (Y : forall c p t, (forall x, In x p -> x <> "/"%byte) -> s = p ++ t -> zlen p = 4 ->
      match index_of "/"%byte s with
       | None => false
       | Some i => if 1 + Z.of_nat i >? 4 then false else have_port (skipn (S i) s)
      end = true -> c).
    { intros c p t NI -> L H. exfalso. destruct (index_of "/"%byte (p ++ t)) as [i|] eqn:I; [|discriminate].
      destruct (1 + Z.of_nat i >? 4) eqn:G; [discriminate|].
      apply index_of_Some in I. destruct I as (a & b & E2 & La & NA).
      assert (In "/"%byte p).
      { assert (TK : ztake 4 (p ++ t) = p) by (apply ztake_app; lia).
        rewrite <- TK, E2. unfold ztake. change (Z.to_nat 4) with 4%nat.
        rewrite firstn_app. apply in_app_iff. right.
        destruct (4 - length a)%nat as [|k] eqn:K; [lia|]. left; reflexivity. }
      apply NI in H0. congruence. }
    destruct (is_prefix ($ "icmp") s) eqn:P3.
    { cbn [negb andb]. apply is_prefix_app in P3. destruct P3 as [t P3].
      apply (Y _ ($ "icmp") t); auto. intros x I. cbn in I. intuition (subst; discriminate). }
    destruct (is_prefix ($ "none") s) eqn:P4.
    { cbn [negb andb]. apply is_prefix_app in P4. destruct P4 as [t P4].
      apply (Y _ ($ "none") t); auto. intros x I. cbn in I. intuition (subst; discriminate). }
    discriminate.
  - intros (L & it & q & -> & Q & (p & ds & P & -> & L1 & F & B)).
    destruct (Z.min (zlen ((p ++ ["/"%byte] ++ ds) ++ q)) 256 =? 256) eqn:E; [lia|].
    rewrite <- !app_assoc in *.
    assert (N : negb (is_prefix ($ "tcp") (p ++ ["/"%byte] ++ ds ++ q)) && negb (is_prefix ($ "udp") (p ++ ["/"%byte] ++ ds ++ q)) = false).
    { destruct P as [->| ->]; reflexivity. }
    rewrite N. cbn [andb].
    rewrite index_of_slash_tcp by auto. cbn [app index_of]. rewrite beq_refl.
    change (1 + Z.of_nat (3 + 0) >? 4) with false. cbv iota.
    assert (SK : skipn (S (3 + 0)) (p ++ "/"%byte :: ds ++ q) = ds ++ q) by (destruct P as [->| ->]; reflexivity).
    rewrite SK. apply have_port_iff. split.
    + rewrite !zlen_app in L. pose proof (zlen_nonneg p). change (zlen ["/"%byte]) with 1 in L. rewrite zlen_app. lia.
    + exists ds, q. split; auto. split; auto. split; auto.
Qed.

Lemma strchr_split c s : match strchr c s with
  | None => ~ In c s
  | Some r => exists p t, s = p ++ r /\ r = c :: t /\ ~ In c p
  end.
Proof.
  induction s as [|x s IH]; cbn [strchr]; [auto|].
  destruct (beq_spec x c) as [->|N].
  - exists [], s. auto.
  - destruct (strchr c s) as [r|].
    + destruct IH as (p & t & -> & -> & NI). exists (x :: p), t.
      split; [reflexivity|]. split; auto. intros [?|?]; [congruence|tauto].
    + intros [?|?]; [congruence|tauto].
Qed.

Lemma proto_port_no_comma it : proto_port it -> ~ In comma it.
Proof.
  intros (p & ds & P & -> & _ & F & _) I. apply in_app_iff in I. destruct I as [I|I].
  - destruct P as [->| ->]; cbn in I; intuition discriminate.
  - cbn in I. destruct I as [I|I]; [discriminate|]. unfold all_digits in F. rewrite Forall_forall in F.
    apply F, digit_not_comma in I. congruence.
Qed.

Lemma split_at_comma p t p' t' : ~ In comma p -> ~ In comma p' ->
  p ++ comma :: t = p' ++ comma :: t' -> p = p' /\ t = t'.
Proof.
  revert p'. induction p as [|x p IH]; intros [|y p'] N N' E; cbn in *.
  - inversion E; auto.
  - inversion E; subst. exfalso. tauto.
  - inversion E; subst. exfalso. tauto.
  - inversion E; subst. destruct (IH p') as [-> ->]; auto; tauto.
Qed.

Lemma access_items_iff fuel : forall s, (length s < fuel)%nat -> zlen s < 256 ->
  access_items fuel s = true <->
  exists items, items <> [] /\ s = join [comma] items /\ Forall proto_port items.
Proof.
  induction fuel as [|f IH]; intros s Hf L; [lia|]. cbn [access_items]. split.
  - destruct (validate_proto_port_spec s) eqn:V; [|discriminate].
    apply proto_spec_iff in V. destruct V as (_ & it & q & E & Q & P).
    pose proof (proto_port_no_comma it P) as NC.
    pose proof (strchr_split comma s) as SS. destruct (strchr comma s) as [r|].
    + destruct SS as (p & t & E2 & -> & NP). cbn [tl]. intro H.
      destruct Q as [->|[u ->]].
      { exfalso. rewrite app_nil_r in E. apply NC. rewrite <- E, E2. apply in_app_iff. right; left; auto. }
      rewrite E2 in E. apply split_at_comma in E; auto. destruct E as [-> ->].
      apply IH in H.
      * destruct H as (items & N & -> & F). exists (it :: items). split; [discriminate|].
        split; [|auto]. destruct items; [congruence|]. rewrite E2. reflexivity.
      * rewrite E2 in Hf. rewrite app_length in Hf. cbn [length] in Hf. lia.
      * rewrite E2, zlen_app, zlen_cons in L. pose proof (zlen_nonneg it). lia.
    + intros _. destruct Q as [->|[u ->]].
      * exists [it]. split; [discriminate|]. rewrite app_nil_r in E. subst. auto.
      * exfalso. apply SS. rewrite E. apply in_app_iff. right; left; auto.
  - intros (items & N & -> & F). destruct items as [|it items]; [congruence|].
    inversion F; subst. pose proof (proto_port_no_comma it H1) as NC.
    destruct items as [|it2 items].
    + cbn [join] in *.
      assert (V : validate_proto_port_spec it = true).
      { apply proto_spec_iff. split; [auto|]. exists it, []. rewrite app_nil_r. auto. }
      rewrite V. pose proof (strchr_split comma it) as SS. destruct (strchr comma it); [|reflexivity].
      destruct SS as (p & t & E & -> & _). exfalso. apply NC. rewrite E. apply in_app_iff. right; left; auto.
    + set (rest := join [comma] (it2 :: items)) in *.
      assert (EJ : join [comma] (it :: it2 :: items) = it ++ comma :: rest) by reflexivity.
      rewrite EJ in *.
      assert (V : validate_proto_port_spec (it ++ comma :: rest) = true).
      { apply proto_spec_iff. split; [auto|]. exists it, (comma :: rest). split; auto. split; eauto. }
      rewrite V. pose proof (strchr_split comma (it ++ comma :: rest)) as SS.
      destruct (strchr comma (it ++ comma :: rest)) as [r|].
      * destruct SS as (p & t & E & -> & NP). apply split_at_comma in E; auto. destruct E as [<- <-].
        cbn [tl]. apply IH.
        -- rewrite app_length in Hf. cbn [length] in Hf. lia.
        -- rewrite zlen_app, zlen_cons in L. pose proof (zlen_nonneg it). lia.
        -- exists (it2 :: items). split; [discriminate|]. auto.
      * exfalso. apply SS. apply in_app_iff. right; left; auto.
Qed.

Lemma ipv4_text_no_comma ip a b c d : ipv4_text ip a b c d -> ~ In comma ip.
Proof.
  intros T I. apply ipv4_text_chars in T. rewrite Forall_forall in T.
  apply T, comma_not_ip in I. congruence.
Qed.

Theorem validate_access_msg_iff msg :
  validate_access_msg msg = true <-> (zlen msg < 256 /\ access_request msg).
Proof.
  unfold validate_access_msg, strnlen, MAX_SPA_MESSAGE_SIZE, access_request. split.
  - destruct (Z.min (zlen msg) 256 =? 256) eqn:E; [discriminate|].
    destruct (have_allow_ip msg) eqn:A; [|discriminate]. cbn [negb].
    destruct (index_of comma msg) as [i|] eqn:I; [|discriminate].
    destruct (1 + Z.of_nat i >=? Z.min (zlen msg) 256) eqn:G; [discriminate|]. intro H.
    split; [lia|].
    apply have_allow_ip_iff in A. destruct A as (ip & q & a & b & c & d & -> & Q & T & L).
    pose proof (ipv4_text_no_comma _ _ _ _ _ T) as NC.
    destruct Q as [->|[u ->]].
    { exfalso. rewrite app_nil_r in I. apply index_of_Some in I. destruct I as (x & y & -> & _).
      apply NC, in_app_iff. right; left; auto. }
    rewrite index_of_app in I by auto. inversion I; subst i.
    rewrite <- Nat.add_1_r in H. rewrite <- skipn_skipn in H. rewrite skipn_app, Nat.sub_diag, skipn_all in H.
    cbn [app skipn] in H.
    apply access_items_iff in H.
    + destruct H as (items & N & -> & F). exists ip, items, a, b, c, d.
      split; [|auto]. destruct items; [congruence|reflexivity].
    + rewrite app_length. cbn [length]. lia.
    + rewrite zlen_app, zlen_cons in E. pose proof (zlen_nonneg ip). lia.
  - intros (L & ip & items & a & b & c & d & -> & N & T & L15 & F).
    pose proof (ipv4_text_no_comma _ _ _ _ _ T) as NC.
    destruct items as [|it items]; [congruence|].
    set (rest := join [comma] (it :: items)) in *.
    assert (EJ : join [comma] (ip :: it :: items) = ip ++ comma :: rest) by reflexivity.
    rewrite EJ in *.
    destruct (Z.min (zlen (ip ++ comma :: rest)) 256 =? 256) eqn:E; [lia|].
    assert (A : have_allow_ip (ip ++ comma :: rest) = true).
    { apply have_allow_ip_iff. exists ip, (comma :: rest), a, b, c, d. repeat (split; eauto). }
    rewrite A. cbn [negb]. rewrite index_of_app by auto.
    assert (1 <= zlen rest).
    { assert (NE : rest <> []).
      { unfold rest. inversion F as [|? ? P ?]; subst. destruct P as (p & ds & P & -> & _).
        destruct items; destruct P as [->| ->]; discriminate. }
      destruct rest; [congruence|]. rewrite zlen_cons. pose proof (zlen_nonneg rest). lia. }
    destruct (1 + Z.of_nat (length ip) >=? Z.min (zlen (ip ++ comma :: rest)) 256) eqn:G.
    { change (Z.of_nat (length ip)) with (zlen ip) in G. rewrite zlen_app, zlen_cons in G. rewrite zlen_app, zlen_cons in L. lia. }
    rewrite <- Nat.add_1_r. rewrite <- skipn_skipn. rewrite skipn_app, Nat.sub_diag, skipn_all.
    cbn [app skipn]. apply access_items_iff.
    + rewrite app_length. cbn [length]. lia.
    + rewrite zlen_app, zlen_cons in L. pose proof (zlen_nonneg ip). lia.
    + exists (it :: items). split; [discriminate|auto].
Qed.

Theorem validate_cmd_msg_iff msg :
  validate_cmd_msg msg = true <-> (zlen msg < 1400 /\ command_request msg).
Proof.
  unfold validate_cmd_msg, strnlen, MAX_SPA_CMD_LEN, command_request. split.
  - destruct (Z.min (zlen msg) 1400 =? 1400) eqn:E; [discriminate|].
    destruct (have_allow_ip msg) eqn:A; [|discriminate]. cbn [negb].
    destruct (index_of comma msg) as [i|] eqn:I; [|discriminate]. intro G.
    split; [lia|].
    apply have_allow_ip_iff in A. destruct A as (ip & q & a & b & c & d & -> & Q & T & L).
    pose proof (ipv4_text_no_comma _ _ _ _ _ T) as NC.
    destruct Q as [->|[u ->]].
    { exfalso. rewrite app_nil_r in I. apply index_of_Some in I. destruct I as (x & y & -> & _).
      apply NC, in_app_iff. right; left; auto. }
    rewrite index_of_app in I by auto. inversion I; subst i.
    exists ip, u, a, b, c, d. split; [reflexivity|]. split; auto. split; auto.
    intros ->. rewrite zlen_app in *. change (zlen [comma]) with 1 in *. unfold zlen in *. lia.
  - intros (L & ip & cmd & a & b & c & d & -> & T & L15 & N).
    pose proof (ipv4_text_no_comma _ _ _ _ _ T) as NC. cbn [app] in *.
    destruct (Z.min (zlen (ip ++ comma :: cmd)) 1400 =? 1400) eqn:E; [lia|].
    assert (A : have_allow_ip (ip ++ comma :: cmd) = true).
    { apply have_allow_ip_iff. exists ip, (comma :: cmd), a, b, c, d. repeat (split; eauto). }
    rewrite A. cbn [negb]. rewrite index_of_app by auto.
    rewrite zlen_app, zlen_cons in *.
    assert (1 <= zlen cmd) by (destruct cmd; [congruence|rewrite zlen_cons; pose proof (zlen_nonneg cmd); lia]).
    unfold zlen in *. lia.
Qed.

(** [validate_nat_access_msg] *)
Lemma strcspn_comma_split s p t : s = p ++ comma :: t -> ~ In comma p -> strcspn s [comma] = zlen p.
Proof.
  intros -> N. induction p as [|c p IH]; cbn [app strcspn].
  - reflexivity.
  - assert (M : memb c [comma] = false).
    { apply not_true_is_false. rewrite memb_In. intros [<-|[]]. apply N. left; auto. }
    rewrite M, zlen_cons, IH; auto. intro; apply N; right; auto.
Qed.

Lemma strcspn_ge s set p t : s = p ++ t -> (strcspn s set <? zlen p) = false <-> (forall c, In c p -> ~ In c set).
Proof.
  intros ->. assert (X : strcspn (p ++ t) set >= zlen p <-> (forall c, In c p -> ~ In c set)).
  { induction p as [|c p IH].
    - change (zlen (@nil byte)) with 0. split; [intros _ c []|intros _].
      cbn. induction t; cbn [strcspn]; [lia|]. destruct (memb a set); lia.
    - cbn [app strcspn]. rewrite zlen_cons. pose proof (zlen_nonneg p). destruct (memb c set) eqn:M.
      + split; [lia|]. intro F. exfalso. apply memb_In in M. apply (F c); [left; auto|auto].
      + assert (~ In c set) by (rewrite <- memb_In; congruence). split.
        * intros G x [<-|I]; auto. apply IH; auto. lia.
        * intro F. assert (strcspn (p ++ t) set >= zlen p); [|lia].
          apply IH. intros x I. apply F. right; auto. }
  rewrite <- X. lia.
Qed.

Lemma filter_comma_none p : ~ In comma p -> filter (beq comma) p = [].
Proof.
  induction p as [|c p IH]; intro N; [reflexivity|]. cbn [filter].
  destruct (beq_spec comma c); [exfalso; apply N; left; auto|]. apply IH. intro; apply N; right; auto.
Qed.

Theorem validate_nat_access_msg_iff msg :
  validate_nat_access_msg msg = true <-> (zlen msg < 256 /\ nat_request msg).
Proof.
  unfold validate_nat_access_msg, strnlen, MAX_SPA_MESSAGE_SIZE, MAX_HOSTNAME_LEN, nat_request. split.
  - destruct (Z.min (zlen msg) 256 =? 256) eqn:E; [discriminate|].
    replace (Z.min (zlen msg) 256) with (zlen msg) by lia.
    unfold count_characters. rewrite ztake_all by lia.
    destruct (zlen (filter (beq comma) msg) =? 1) eqn:C1; [|discriminate]. cbn [negb].
    destruct (index_of comma msg) as [i|] eqn:I.
    2:{ destruct (strcspn msg [comma] >? 70); [discriminate|]. destruct (strcspn msg nat_bad_chars <? strcspn msg [comma]); discriminate. }
    apply index_of_Some in I. destruct I as (host & r & -> & Li & NC).
    rewrite (strcspn_comma_split _ host r eq_refl NC).
    destruct (zlen host >? 70) eqn:H70; [discriminate|].
    destruct (strcspn (host ++ comma :: r) nat_bad_chars <? zlen host) eqn:BC; [discriminate|].
    destruct (1 + Z.of_nat i >=? zlen (host ++ comma :: r)) eqn:G; [discriminate|].
    subst i. rewrite <- Nat.add_1_r, <- skipn_skipn, skipn_app, Nat.sub_diag, skipn_all. cbn [app skipn].
    destruct (have_port r) eqn:HP; [|discriminate]. intros _. split; [lia|].
    apply have_port_iff in HP. destruct HP as (_ & port & q & -> & Q & PT).
    destruct Q as [->|[u ->]].
    + exists host, port. rewrite app_nil_r in *. split; [reflexivity|]. split; [lia|].
      destruct PT as (P1 & P2 & P3). split; [|auto].
      apply (strcspn_ge (host ++ comma :: port) nat_bad_chars host (comma :: port) eq_refl) in BC || idtac.
      rewrite (strcspn_ge (host ++ comma :: port) nat_bad_chars host (comma :: port) eq_refl) in BC.
      intros c Ic. specialize (BC c Ic). intro X. apply BC. unfold nat_bad_chars.
      cbn in X |- *. intuition (subst; try tauto).
    + exfalso. rewrite filter_app in C1. cbn [filter] in C1. rewrite beq_refl in C1.
      rewrite filter_app in C1. cbn [filter] in C1. rewrite beq_refl in C1.
      rewrite zlen_app, zlen_cons, zlen_app, zlen_cons in C1.
      repeat match type of C1 with context [zlen ?x] => pose proof (zlen_nonneg x); generalize dependent (zlen x); intros end. lia.
  - intros (L & host & port & -> & L70 & BC & L5 & F & B). cbn [app] in *.
    assert (NC : ~ In comma host) by (intro I; apply (BC comma I); cbn; tauto).
    destruct (Z.min (zlen (host ++ comma :: port)) 256 =? 256) eqn:E; [lia|].
    replace (Z.min (zlen (host ++ comma :: port)) 256) with (zlen (host ++ comma :: port)) by lia.
    unfold count_characters. rewrite ztake_all by lia.
    assert (NP : ~ In comma port).
    { intro I. unfold all_digits in F. rewrite Forall_forall in F. apply F, digit_not_comma in I. congruence. }
    rewrite filter_app, (filter_comma_none host NC). cbn [app filter]. rewrite beq_refl, (filter_comma_none port NP).
    change (zlen [comma] =? 1) with true. cbn [negb].
    rewrite (strcspn_comma_split _ host port eq_refl NC).
    destruct (zlen host >? 70) eqn:H70; [lia|].
    assert (BC' : (strcspn (host ++ comma :: port) nat_bad_chars <? zlen host) = false).
    { apply (strcspn_ge _ nat_bad_chars host (comma :: port) eq_refl).
      intros c Ic X. apply (BC c Ic). unfold nat_bad_chars in X. cbn in X |- *. intuition (subst; try tauto). }
    rewrite BC'. rewrite index_of_app by auto.
    rewrite zlen_app, zlen_cons in *.
    destruct (1 + Z.of_nat (length host) >=? zlen host + (1 + zlen port)) eqn:G; [unfold zlen in *; lia|].
    rewrite <- Nat.add_1_r, <- skipn_skipn, skipn_app, Nat.sub_diag, skipn_all. cbn [app skipn].
    assert (HP : have_port port = true).
    { apply have_port_iff. pose proof (zlen_nonneg host). split; [lia|]. exists port, []. rewrite app_nil_r. unfold port_text. auto. }
    rewrite HP. cbn [negb].
    assert (LS : nth (Z.to_nat (zlen host + (1 + zlen port) - 1)) (host ++ comma :: port) x00 = last port x00).
    { rewrite app_nth2 by (unfold zlen in *; lia).
      replace (Z.to_nat (zlen host + (1 + zlen port) - 1) - length host)%nat with (S (length port - 1)) by (unfold zlen in *; lia).
      cbn [nth]. destruct (exists_last (l := port)) as (l' & a & ->).
      - intros ->. change (zlen (@nil byte)) with 0 in L5. lia.
      - rewrite app_length. cbn [length]. replace (length l' + 1 - 1)%nat with (length l') by lia.
        rewrite app_nth2, Nat.sub_diag by lia. cbn. symmetry. clear. induction l'; [reflexivity|].
        cbn [app]. destruct (l' ++ [a]) eqn:E; [destruct l'; discriminate|]. exact IHl'. }
    rewrite LS.
    assert (I : In (last port x00) port).
    { destruct port as [|c port]; [change (zlen (@nil byte)) with 0 in L5; lia|].
      clear. revert c. induction port as [|x port IH]; intro c; [left; reflexivity|].
      right. change (last (c :: x :: port) x00) with (last (x :: port) x00). apply IH. }
    unfold all_digits in F. rewrite Forall_forall in F. apply F, digit_not_comma in I.
    apply beq_neq in I. rewrite I. reflexivity.
Qed.

(** Usernames *)
Lemma username_char_ok_iff c : username_char_ok c = true <-> (32 <= bv c <= 126 /\ ~ In c username_banned).
Proof.
  assert (E : Bool.eqb (username_char_ok c) ((32 <=? bv c) && (bv c <=? 126) && negb (memb c username_banned)) = true).
  { revert c. apply byte_sweep. vm_compute. reflexivity. }
  apply eqb_prop in E. rewrite E, !andb_true_iff, negb_true_iff, <- memb_In, !Z.leb_le, not_true_iff_false. tauto.
Qed.

Theorem validate_username_iff u : zlen u <= 64 ->
  validate_username u = true <-> username_text u.
Proof.
  intro L. unfold username_text, printable. unfold validate_username, strnlen, MAX_SPA_USERNAME_SIZE.
  rewrite ztake_all by lia. rewrite andb_true_iff, forallb_forall, Forall_forall.
  assert (X : negb (Z.min (zlen u) 64 =? 0) = true <-> u <> []).
  { destruct u as [|c u].
    - change (zlen (@nil byte)) with 0. cbn. split; congruence.
    - rewrite zlen_cons in *. pose proof (zlen_nonneg u). split; [discriminate|]. intros _. lia. }
  rewrite X. split; intros [H1 H2]; split; auto; intros x I; apply username_char_ok_iff; auto.
Qed.

Theorem username_setter u : let t := truncate_username u in
  zlen t <= 63 /\ is_prefix t u = true /\ (zlen u <= 63 -> t = u) /\
  (validate_username t = true <-> username_text t).
Proof.
  cbv zeta. assert (L : zlen (truncate_username u) <= 63).
  { unfold truncate_username, strnlen, MAX_SPA_USERNAME_SIZE.
    destruct (Z.min (zlen u) 64 =? 64) eqn:E; [|lia].
    unfold ztake, zlen. rewrite firstn_length. lia. }
  split; [auto|]. split.
  - apply is_prefix_app. unfold truncate_username.
    destruct (strnlen u MAX_SPA_USERNAME_SIZE =? MAX_SPA_USERNAME_SIZE).
    + exists (zdrop (MAX_SPA_USERNAME_SIZE - 1) u). symmetry. apply ztake_zdrop.
    + exists []. rewrite app_nil_r. auto.
  - split; [|apply validate_username_iff; lia].
    intro. unfold truncate_username, strnlen, MAX_SPA_USERNAME_SIZE.
    destruct (Z.min (zlen u) 64 =? 64) eqn:E; [lia|auto].
Qed.
