(** Proofs about the client: segments, requests and check sums. *)
From Verif Require Import Bytes M_accfile M_base64 M_util M_message M_codec M_cipher M_ctx M_access M_replay M_incoming M_packet M_client S_base64 S_text S_codec S_cipher S_ctx S_access S_conf S_cycle M_send S_client S_incoming S_packet S_send
  P_bytes P_base64 P_util P_util2 P_message P_codec P_cycle P_ctx P_ctx2 P_ctx3 P_ctx4 P_ctx5 P_ctx6 P_packet P_client P_client2 P_client3 P_client4 P_client5 P_send P_send2.
From Coq Require Import Init.Byte List ZArith Bool Lia.
Import ListNotations.
Open Scope Z_scope.

Local Ltac ands := repeat match goal with |- _ /\ _ => split end.

(** ** Segments *)
Lemma tcp_segment_is s d data : 0 <= s < 65536 -> 0 <= d < 65536 -> segment 6 (tcp_segment s d data) s d data.
Proof.
  intros RS RD. exists (be16 s ++ be16 d ++ be32 1 ++ be32 0 ++ [zb 80; zb 2] ++ be16 32767 ++ [zb 0; zb 0] ++ [zb 0; zb 0]).
  split; [reflexivity|]. left. split; [reflexivity|]. split; [reflexivity|].
  unfold field, tcp_segment, be16. cbn [skipn app firstn fold_left]. rewrite !bv_zb. Z.div_mod_to_equations; lia.
Qed.
Lemma udp_segment_is s d data : 0 <= s < 65536 -> 0 <= d < 65536 -> segment 17 (udp_segment s d data) s d data.
Proof.
  intros RS RD. exists (be16 s ++ be16 d ++ be16 (zlen data + 8) ++ [zb 0; zb 0]).
  split; [reflexivity|]. right. left. split; [reflexivity|]. split; [reflexivity|].
  unfold field, udp_segment, be16. cbn [skipn app firstn fold_left]. rewrite !bv_zb. Z.div_mod_to_equations; lia.
Qed.
Lemma icmp_message_split ty co ch id data : exists h, icmp_message ty co ch id data = h ++ data /\ zlen h = 8.
Proof.
  exists ([zb ty; zb co] ++ le16 ch ++ (if (ty mod 256 =? 8) && (co mod 256 =? 0) then be16 id ++ be16 1 else [zb 0; zb 0; zb 0; zb 0])).
  unfold icmp_message. destruct ((ty mod 256 =? 8) && (co mod 256 =? 0)); split; reflexivity.
Qed.
Lemma icmp_segment_is ty co id data : segment 1 (icmp_segment ty co id data) 0 0 data.
Proof.
  destruct (icmp_message_split ty co (chksum (icmp_message ty co 0 id data)) id data) as (h & E & L).
  exists h. split; [exact E|]. right. right. auto.
Qed.
Lemma segment_len proto seg s d data : segment proto seg s d data -> zlen data <= zlen seg <= 60 + zlen data.
Proof.
  intros (h & -> & C). rewrite zlen_app. pose proof (zlen_nonneg h).
  assert (zlen h <= 60); [|lia]. destruct C as [(_ & -> & _)|[(_ & -> & _)|(_ & -> & _)]]; try lia.
  assert (F : 0 <= field 12 1 (h ++ data) < 256); [|Z.div_mod_to_equations; lia].
  unfold field. destruct (skipn 12 (h ++ data)) as [|x r]; cbn [firstn fold_left]; [lia|]. pose proof (bv_range x). lia.
Qed.

(** ** Check sums *)
Lemma words_swap : forall b, (words b - 256 * sum_words b) mod 65535 = 0.
Proof.
  fix IH 1. intros [|x [|y r]].
  - reflexivity.
  - cbn [words sum_words]. replace (256 * bv x - 256 * bv x) with 0 by lia. reflexivity.
  - cbn [words sum_words].
    replace (256 * bv x + bv y + words r - 256 * (bv x + 256 * bv y + sum_words r)) with ((words r - 256 * sum_words r) + (- bv y) * 65535) by lia.
    rewrite Z.mod_add by lia. apply IH.
Qed.
Lemma sum_words_range : forall b, 0 <= sum_words b <= 65535 * zlen b.
Proof.
  fix IH 1. intros [|x [|y r]].
  - split; vm_compute; discriminate.
  - cbn [sum_words]. change (zlen [x]) with 1. pose proof (bv_range x). lia.
  - cbn [sum_words]. rewrite !zlen_cons. pose proof (bv_range x). pose proof (bv_range y). specialize (IH r). lia.
Qed.
Lemma words_range : forall b, 0 <= words b.
Proof.
  fix IH 1. intros [|x [|y r]]; cbn [words]; [lia| |]; try pose proof (bv_range x); try pose proof (bv_range y); try specialize (IH r); lia.
Qed.
Lemma words_zero : forall b, words b = 0 -> sum_words b = 0.
Proof.
  fix IH 1. intros [|x [|y r]]; cbn [words sum_words]; [auto| |]; pose proof (bv_range x); intro E; [lia|].
  pose proof (bv_range y). pose proof (words_range r). rewrite (IH r) by lia. lia.
Qed.
Lemma chksum_ok b : sum_words b < 4294967296 -> 0 <= chksum b < 65536 /\ (sum_words b + chksum b) mod 65535 = 0 /\ sum_words b + chksum b > 0.
Proof.
  intro R. pose proof (sum_words_range b) as [P _]. unfold chksum, u32. rewrite Z.mod_small by lia.
  set (q := sum_words b / 65536). set (r := sum_words b mod 65536).
  assert (SE : sum_words b = 65536 * q + r) by (unfold q, r; Z.div_mod_to_equations; lia).
  assert (0 <= r < 65536) by (unfold r; apply Z.mod_pos_bound; lia).
  assert (0 <= q < 65536) by (unfold q; Z.div_mod_to_equations; lia).
  unfold u16. set (s1 := q + r).
  assert (C : (s1 + s1 / 65536) mod 65536 = s1 \/ (65536 <= s1 /\ (s1 + s1 / 65536) mod 65536 = s1 - 65535)).
  { destruct (Z_lt_le_dec s1 65536).
    - left. rewrite (Z.div_small s1) by lia. rewrite Z.add_0_r. apply Z.mod_small. lia.
    - right. split; auto. assert (s1 / 65536 = 1) as -> by (Z.div_mod_to_equations; lia).
      replace (s1 + 1) with (s1 - 65535 + 1 * 65536) by lia. rewrite Z.mod_add by lia. apply Z.mod_small. lia. }
  assert (B : 0 <= (s1 + s1 / 65536) mod 65536 < 65536) by (apply Z.mod_pos_bound; lia).
  destruct C as [C|(C1 & C)]; rewrite C in *.
  - ands; lia.
  - ands; lia.
Qed.
Lemma icmp_sum ty co ch id data : 0 <= ch < 65536 -> sum_words (icmp_message ty co ch id data) = sum_words (icmp_message ty co 0 id data) + ch.
Proof.
  intro R. unfold icmp_message, le16. cbn [app sum_words]. rewrite !bv_zb. generalize (sum_words ((if (ty mod 256 =? 8) && (co mod 256 =? 0) then be16 id ++ be16 1 else [zb 0; zb 0; zb 0; zb 0]) ++ data)).
  intro z. change (0 / 256) with 0. Z.div_mod_to_equations; lia.
Qed.
Lemma icmp_sum_ok ty co id data : zlen data <= 60000 -> sum_ok (icmp_segment ty co id data).
Proof.
  intro L. unfold icmp_segment. set (b := icmp_message ty co 0 id data).
  destruct (icmp_message_split ty co 0 id data) as (h & E & HL). fold b in E.
  assert (BL : zlen b = 8 + zlen data) by (rewrite E, zlen_app; lia).
  destruct (chksum_ok b) as (R & M & P). { pose proof (sum_words_range b). lia. }
  set (c := icmp_message ty co (chksum b) id data).
  assert (SC : sum_words c = sum_words b + chksum b) by (apply icmp_sum; auto).
  pose proof (words_swap c) as W. rewrite SC in W. split.
  - replace (words c) with ((words c - 256 * (sum_words b + chksum b)) + 256 * (sum_words b + chksum b)) by lia.
    rewrite Z.add_mod, W, Z.mul_mod, M by lia. reflexivity.
  - pose proof (words_range c). destruct (Z.eq_dec (words c) 0) as [Z0|]; [|lia]. apply words_zero in Z0. lia.
Qed.

(** ** What the server makes of it *)
Lemma text_start cf p d : payload p = d -> packet_text d -> ~ is_http cf p /\ unprefixed p.
Proof.
  intros E (_ & _ & c & r & -> & IN). split.
  - intros (_ & g & r' & P & L). rewrite E in P. destruct g as [|x g]; [discriminate|]. injection P as <- _. cbn [lower map] in L. injection L as L _.
    cbn in IN. destruct IN as [<-|[<-|[<-|[<-|[]]]]]; discriminate L.
  - split; [intros r' P|intros _ r' P]; rewrite E in P; injection P as -> _; cbn in IN; destruct IN as [Q|[Q|[Q|[Q|[]]]]]; discriminate Q.
Qed.
Lemma text_carries cf p d : payload p = d -> packet_text d -> carries cf p d.
Proof. intros E T. right. split; [apply (text_start cf p d E T)|auto]. Qed.
Lemma b64_eq d : Forall is_b64_char d -> Forall b64_or_eq d.
Proof. apply Forall_impl. intros c C. left. exact C. Qed.
Lemma url_back_safe c : is_b64_char c -> url_back (url_safe c) = c.
Proof.
  intros I. unfold url_safe. destruct (beq c "+"%byte) eqn:E1; [apply beq_eq in E1; subst; reflexivity|].
  destruct (beq c "/"%byte) eqn:E2; [apply beq_eq in E2; subst; reflexivity|].
  unfold url_back. destruct (beq c "-"%byte) eqn:E3; [|destruct (beq c "_"%byte) eqn:E4; auto].
  - apply beq_eq in E3. subst. exfalso. apply b64cb_iff in I. discriminate I.
  - apply beq_eq in E4. subst. exfalso. apply b64cb_iff in I. discriminate I.
Qed.
Lemma http_carries cf p d agent host : on (cf_http cf) -> packet_text d -> no_nul agent -> zlen agent <= 99 -> no_nul host -> zlen host <= 49 ->
  payload p = http_request ($ "/" ++ map url_safe d) agent host ->
  carries cf p d /\ unprefixed p /\ ((off (cf_any_user_agent cf) -> exists r, agent = $ "Fwknop" ++ r) -> agent_ok cf p).
Proof.
  intros ON T NA LA NH LH E. destruct T as (B & L & _).
  set (tail := $ " HTTP/1.1" ++ crlf ++ $ "User-Agent: " ++ agent ++ crlf ++ $ "Accept: */*" ++ crlf ++ $ "Host: " ++ host ++ crlf ++ $ "Connection: close" ++ crlf ++ crlf).
  assert (TL : zlen tail <= 300).
  { unfold tail. rewrite !zlen_app. change (zlen ($ " HTTP/1.1")) with 9. change (zlen crlf) with 2. change (zlen ($ "User-Agent: ")) with 12.
    change (zlen ($ "Accept: */*")) with 11. change (zlen ($ "Host: ")) with 6. change (zlen ($ "Connection: close")) with 17. lia. }
  set (u := map url_safe d) in *.
  assert (UL : zlen u = zlen d) by (unfold u, zlen; rewrite map_length; reflexivity).
  assert (PE : payload p = $ "GET /" ++ u ++ tail).
  { rewrite E. unfold http_request. fold tail. transitivity ($ "GET " ++ ($ "/" ++ u) ++ tail); [|reflexivity].
    apply P_bytes.ztake_all. rewrite !zlen_app. change (zlen ($ "GET ")) with 4. change (zlen ($ "/")) with 1. unfold HTTP_MAX_REQUEST_LEN. lia. }
  assert (HT : is_http cf p). { split; auto. exists ($ "GET /"), (u ++ tail). auto. }
  assert (UC : forall c, In c u -> ~ blank c /\ c <> x00).
  { intros c I. apply in_map_iff in I as (x & <- & I). rewrite Forall_forall in B. specialize (B x I). apply b64cb_iff in B.
    clear - B. revert B. unfold blank, url_safe. destruct x; vm_compute; intro B; try discriminate B; split; intro Q; intuition discriminate. }
  ands.
  - left. split; auto. exists u. split.
    + exists ($ "GET /"), tail. ands; auto.
      * intro X. apply Exists_exists in X as (c & I & X). exact (proj1 (UC c I) X).
      * right. exists " "%byte. eexists. split; [reflexivity|]. vm_compute. auto.
    + unfold u. rewrite map_map. symmetry. rewrite <- (map_id d) at 2. apply map_ext_in. intros c I. apply url_back_safe. rewrite Forall_forall in B. auto.
  - split; [intros r' P|intros _ r' P]; rewrite PE in P; discriminate P.
  - intros AG OFF _. destruct (AG OFF) as (r & ->). pose proof (proj2 (proj1 (no_nul_app ($ "Fwknop") r) NA)) as NR.
    exists (payload p), ($ "GET /" ++ u ++ $ " HTTP/1.1" ++ crlf), (r ++ crlf ++ $ "Accept: */*" ++ crlf ++ $ "Host: " ++ host ++ crlf ++ $ "Connection: close" ++ crlf ++ crlf).
    split.
    + split; [|auto]. rewrite PE. apply no_nul_app. split; [vm_compute; intuition discriminate|]. apply no_nul_app. split.
      * unfold no_nul. intro I. exact (proj2 (UC x00 I) eq_refl).
      * unfold tail. repeat (match goal with |- no_nul (?a ++ ?b) => apply (proj2 (no_nul_app a b)); split end); auto; vm_compute; intuition discriminate.
    + rewrite PE. unfold tail. rewrite <- !app_assoc. reflexivity.
Qed.

Lemma scan_base_ge base : 2 <= base -> forall s acc, 0 <= acc -> 0 <= fst (scan_base base acc s).
Proof.
  intros B s. induction s as [|c s IH]; intros acc A; cbn [scan_base fst]; auto.
  destruct (isxdigit c && (digit_of c <? base)) eqn:E; [|auto]. apply IH. apply andb_true_iff in E as [X _].
  assert (0 <= digit_of c). { revert X. clear. destruct c; vm_compute; intro X; try discriminate X; discriminate. }
  nia.
Qed.
Lemma strtoul0_ge s : 0 <= fst (strtoul0 s).
Proof.
  unfold strtoul0. destruct s as [|c r]; [cbn; lia|]. destruct (beq c "0"%byte); [|apply scan_base_ge; lia].
  destruct r as [|x [|h r']]; try (apply scan_base_ge; lia). destruct ((beq x "x"%byte || beq x "X"%byte) && isxdigit h); apply scan_base_ge; lia.
Qed.
Lemma inet_aton_fin_range parts val a : Forall (fun z => 0 <= z <= 255) parts -> 0 <= val <= 4294967295 -> inet_aton_fin parts val = Some a -> 0 <= a < 4294967296.
Proof.
  intros F V E. unfold inet_aton_fin in E. destruct parts as [|x [|y [|z [|]]]].
  - injection E as <-. lia.
  - destruct (val >? 16777215) eqn:G; [discriminate|]. injection E as <-. rewrite Z.gtb_ltb in G. apply Z.ltb_ge in G. apply Forall_inv in F. lia.
  - destruct (val >? 65535) eqn:G; [discriminate|]. injection E as <-. rewrite Z.gtb_ltb in G. apply Z.ltb_ge in G.
    pose proof (Forall_inv F). pose proof (Forall_inv (Forall_inv_tail F)). cbn beta in *. lia.
  - destruct (val >? 255) eqn:G; [discriminate|]. injection E as <-. rewrite Z.gtb_ltb in G. apply Z.ltb_ge in G.
    pose proof (Forall_inv F). pose proof (Forall_inv (Forall_inv_tail F)). pose proof (Forall_inv (Forall_inv_tail (Forall_inv_tail F))). cbn beta in *. lia.
  - discriminate.
Qed.
Lemma inet_aton_range : forall f parts s a, Forall (fun z => 0 <= z <= 255) parts -> inet_aton_go f parts s = Some a -> 0 <= a < 4294967296.
Proof.
  induction f as [|f IH]; intros parts s a F E; [discriminate|]. cbn [inet_aton_go] in E. destruct s as [|c s]; [discriminate|].
  destruct (negb (isdigit c)); [discriminate|]. pose proof (strtoul0_ge (c :: s)) as G. destruct (strtoul0 (c :: s)) as [val rest]. cbn [fst] in G.
  destruct (val >? 4294967295) eqn:V; [discriminate|]. rewrite Z.gtb_ltb in V. apply Z.ltb_ge in V. destruct rest as [|d rest].
  - apply (inet_aton_fin_range parts val); auto.
  - destruct (beq d "."%byte).
    + destruct ((zlen parts >? 2) || (val >? 255)) eqn:C; [discriminate|]. apply orb_false_iff in C as [_ C]. rewrite Z.gtb_ltb in C. apply Z.ltb_ge in C.
      apply (IH (val :: parts) rest); auto.
    + destruct (isspace d); [|discriminate]. apply (inet_aton_fin_range parts val); auto.
Qed.
Lemma source_addr_range x s : source_addr x = Some s -> 0 <= s < 4294967296 /\ (x_spoof x <> [] -> inet_aton (x_spoof x) = Some s).
Proof.
  unfold source_addr. destruct (x_spoof x) as [|c r]; [intro E; injection E as <-; split; [lia|congruence]|].
  destruct (inet_aton (c :: r)) as [a|] eqn:I; [|discriminate]. destruct (a =? 4294967295); [discriminate|]. intro E. injection E as <-.
  split; auto. unfold inet_aton in I. apply inet_aton_range in I; auto.
Qed.
