(** Proofs about the reception of packets. *)
From Verif Require Import Bytes S_base64 S_text S_codec S_ctx S_access S_replay S_cycle M_util M_replay M_incoming S_incoming M_packet S_packet P_bytes P_util P_util2 P_access P_incoming.
From Coq Require Import Init.Byte List ZArith Bool Lia Arith.
Import ListNotations.
Open Scope Z_scope.

Lemma nth_firstn_skipn (l : bytes) i : (i < length l)%nat -> firstn 1 (skipn i l) = [nth i l x00].
Proof.
  revert i. induction l as [|c l IH]; intros [|i] L; cbn [length] in L; try lia; [reflexivity|]. cbn [skipn nth]. apply IH. lia.
Qed.
Lemma field_1 l i : (i < length l)%nat -> field i 1 l = bv (nth i l x00).
Proof. intro L. unfold field. rewrite nth_firstn_skipn by auto. reflexivity. Qed.
Lemma skipn_nth (l : bytes) i : (i < length l)%nat -> skipn i l = nth i l x00 :: skipn (S i) l.
Proof. revert i. induction l as [|c l IH]; intros [|i] L; cbn [length] in L; try lia; [reflexivity|]. cbn [skipn nth]. apply IH. lia. Qed.
Lemma field_2 l i : (i + 1 < length l)%nat -> field i 2 l = bv (nth i l x00) * 256 + bv (nth (S i) l x00).
Proof. intro L. unfold field. rewrite (skipn_nth l i), (skipn_nth l (S i)) by lia. cbn [firstn fold_left]. lia. Qed.
Lemma field_4 l i : (i + 3 < length l)%nat -> field i 4 l = field i 2 l * 65536 + field (i + 2) 2 l.
Proof.
  intro L. rewrite (field_2 l i), (field_2 l (i + 2)) by lia. unfold field.
  rewrite (skipn_nth l i), (skipn_nth l (S i)), (skipn_nth l (S (S i))), (skipn_nth l (S (S (S i)))) by lia. cbn [firstn fold_left].
  replace (i + 2)%nat with (S (S i)) by lia. lia.
Qed.
Lemma bv_bounds c : 0 <= bv c < 256.
Proof. apply bv_range. Qed.
Lemma field_1_range l i : 0 <= field i 1 l < 256.
Proof. unfold field. destruct (skipn i l) as [|c r]; cbn [firstn fold_left]; [lia|]. pose proof (bv_bounds c). lia. Qed.
Lemma field_2_range l i : 0 <= field i 2 l < 65536.
Proof.
  unfold field. destruct (skipn i l) as [|c [|d r]]; cbn [firstn fold_left]; try lia; pose proof (bv_bounds c); [lia|]. pose proof (bv_bounds d). lia.
Qed.
Lemma field_4_range l i : 0 <= field i 4 l < 4294967296.
Proof.
  unfold field. destruct (skipn i l) as [|a [|b [|c [|d r]]]]; cbn [firstn fold_left]; try lia;
    try (pose proof (bv_bounds a)); try (pose proof (bv_bounds b)); try (pose proof (bv_bounds c)); try (pose proof (bv_bounds d)); lia.
Qed.

Lemma rd_spec f i : rd f i = if (0 <=? i) && (i + 1 <=? zlen f) then Ok (field (Z.to_nat i) 1 f) else Fault.
Proof.
  unfold rd. replace (i <? zlen f) with (i + 1 <=? zlen f) by (destruct (Z.leb_spec (i + 1) (zlen f)), (Z.ltb_spec i (zlen f)); auto; lia).
  destruct (Z.leb_spec 0 i), (Z.leb_spec (i + 1) (zlen f)); cbn [andb]; auto. rewrite field_1; auto. unfold zlen in *. lia.
Qed.
Lemma rd16_spec f i : rd16 f i = if (0 <=? i) && (i + 2 <=? zlen f) then Ok (field (Z.to_nat i) 2 f) else Fault.
Proof.
  unfold rd16. rewrite !rd_spec.
  destruct (Z.leb_spec 0 i), (Z.leb_spec (i + 1) (zlen f)), (Z.leb_spec (i + 2) (zlen f)), (Z.leb_spec 0 (i + 1)), (Z.leb_spec (i + 1 + 1) (zlen f)); cbn [andb bind]; auto; try lia.
  rewrite !field_1, field_2 by (unfold zlen in *; lia). replace (Z.to_nat (i + 1)) with (S (Z.to_nat i)) by lia. reflexivity.
Qed.
Lemma rd32_spec f i : rd32 f i = if (0 <=? i) && (i + 4 <=? zlen f) then Ok (field (Z.to_nat i) 4 f) else Fault.
Proof.
  unfold rd32. rewrite !rd16_spec.
  destruct (Z.leb_spec 0 i), (Z.leb_spec (i + 2) (zlen f)), (Z.leb_spec (i + 4) (zlen f)), (Z.leb_spec 0 (i + 2)), (Z.leb_spec (i + 2 + 2) (zlen f)); cbn [andb bind]; auto; try lia.
  rewrite field_4 by (unfold zlen in *; lia). replace (Z.to_nat (i + 2)) with (Z.to_nat i + 2)%nat by lia. reflexivity.
Qed.
(** Fields of a part. *)
Lemma field_app l ip pad i n : (i + n <= length ip)%nat -> field (length l + i) n (l ++ ip ++ pad) = field i n ip.
Proof.
  intro L. unfold field. f_equal. rewrite skipn_app. rewrite (skipn_all2 l) by lia. cbn [app].
  replace (length l + i - length l)%nat with i by lia. rewrite skipn_app, firstn_app. replace (n - length (skipn i ip))%nat with 0%nat by (rewrite skipn_length; lia).
  cbn [firstn]. apply app_nil_r.
Qed.
Lemma field_part l ip pad i n : 0 <= i -> (Z.to_nat i + n <= length ip)%nat -> field (Z.to_nat (zlen l + i)) n (l ++ ip ++ pad) = field (Z.to_nat i) n ip.
Proof. intros I L. replace (Z.to_nat (zlen l + i)) with (length l + Z.to_nat i)%nat by (unfold zlen; lia). apply field_app. auto. Qed.

Lemma cut (f : bytes) n k : 0 <= n -> 0 <= k -> n + k <= zlen f -> exists l ip pad, f = l ++ ip ++ pad /\ zlen l = n /\ zlen ip = k.
Proof.
  intros. exists (ztake n f), (ztake k (zdrop n f)), (zdrop k (zdrop n f)). rewrite !ztake_zdrop. split; auto.
  unfold ztake, zdrop, zlen in *. rewrite !firstn_length, skipn_length. lia.
Qed.

Ltac bools := repeat match goal with
  | E : (_ <? _) = true |- _ => apply Z.ltb_lt in E | E : (_ <? _) = false |- _ => apply Z.ltb_ge in E
  | E : (_ >? _) = true |- _ => rewrite Z.gtb_lt in E | E : (_ >? _) = false |- _ => rewrite Z.gtb_ltb in E; apply Z.ltb_ge in E
  | E : (_ <=? _) = true |- _ => apply Z.leb_le in E | E : (_ <=? _) = false |- _ => apply Z.leb_gt in E
  | E : (_ =? _) = true |- _ => apply Z.eqb_eq in E | E : (_ =? _) = false |- _ => apply Z.eqb_neq in E
  | E : _ && _ = true |- _ => apply andb_true_iff in E; destruct E
  | E : _ && _ = false |- _ => apply andb_false_iff in E
  | E : _ || _ = true |- _ => apply orb_true_iff in E
  | E : _ || _ = false |- _ => apply orb_false_iff in E; destruct E
  | E : negb _ = true |- _ => apply negb_true_iff in E | E : negb _ = false |- _ => apply negb_false_iff in E end.

Lemma link_length_fun off f n n' : link_length off f n -> link_length off f n' -> n = n'.
Proof.
  intros (o & t & O & C & A) (o' & t' & O' & C' & A'). assert (t = t') as <- by (destruct C as [[? ?]|[? ?]], C' as [[? ?]|[? ?]]; try tauto; congruence).
  assert (o = o') as <- by (destruct O as [[? ?]|[? ?]], O' as [[? ?]|[? ?]]; try tauto; congruence). lia.
Qed.
Lemma link_spec off plen f : 14 <= zlen f ->
  match link_header off plen f with
  | Fault => tagged f /\ zlen f < 18
  | Ok (n, len) => (tagged f -> 18 <= zlen f) /\ link_length off f n /\
      forall t, contents f t -> ((t > 1500 \/ off = 16) -> len = u16 (plen + 4)) /\ (t <= 1500 -> off <> 16 -> len = plen)
  end.
Proof.
  intro L. unfold link_header. rewrite rd16_spec. replace ((0 <=? 12) && (12 + 2 <=? zlen f)) with true by (symmetry; apply andb_true_iff; split; apply Z.leb_le; lia).
  cbn [bind]. change (Z.to_nat 12) with 12%nat.
  assert (FIN : forall o t, ((tagged f /\ o = off + 4) \/ (~ tagged f /\ o = off)) -> contents f t -> (tagged f -> 18 <= zlen f) ->
    match (if (t >? 1500) || (off =? 16) then Ok (if t =? 43690 then o + 5 else o, u16 (plen + ETHER_CRC_LEN)) else Ok (o + 3, plen)) with
    | Fault => tagged f /\ zlen f < 18
    | Ok (n, len) => (tagged f -> 18 <= zlen f) /\ link_length off f n /\
        forall t, contents f t -> ((t > 1500 \/ off = 16) -> len = u16 (plen + 4)) /\ (t <= 1500 -> off <> 16 -> len = plen)
    end).
  { intros o t O C T18. assert (CF : forall t', contents f t' -> t' = t) by (intros t' C'; destruct C as [[? ?]|[? ?]], C' as [[? ?]|[? ?]]; try tauto; congruence).
    destruct ((t >? 1500) || (off =? 16)) eqn:Q; bools.
    - assert (QQ : t > 1500 \/ off = 16) by (destruct Q as [Q|Q]; bools; lia). split; auto. split.
      + exists o, t. split; auto. split; auto. destruct (t =? 43690) eqn:X; bools; lia.
      + intros t' C'. rewrite (CF t' C'). split; intros; [reflexivity|lia].
    - split; auto. split.
      + exists o, t. split; auto. split; auto.
      + intros t' C'. rewrite (CF t' C'). split; intros; [lia|reflexivity]. }
  destruct (field 12 2 f =? 33024) eqn:T; bools.
  - rewrite rd16_spec. destruct ((0 <=? 16) && (16 + 2 <=? zlen f)) eqn:B; cbn [bind]; [|bools; split; [exact T|]; destruct B; bools; lia].
    change (Z.to_nat 16) with 16%nat. bools. apply FIN; [left|left|]; auto.
  - cbn [bind]. apply FIN; [right|right|]; auto. intros; contradiction.
Qed.
Lemma contents_ex f : exists t, contents f t.
Proof. destruct (Z.eq_dec (field 12 2 f) 33024); [exists (field 16 2 f); left|exists (field 12 2 f); right]; split; auto. Qed.
Lemma link_nonneg off f n : 0 <= off -> link_length off f n -> 0 <= n.
Proof. intros O (o & t & Q & C & A). assert (0 <= o) by (destruct Q as [[_ ?]|[_ ?]]; lia). lia. Qed.

Lemma legal_iff off f plen len : (forall t, contents f t -> ((t > 1500 \/ off = 16) -> len = u16 (u16 plen + 4)) /\ (t <= 1500 -> off <> 16 -> len = u16 plen)) ->
  (64 <= len <= 1518 <-> legal_length off f (plen mod 65536)).
Proof.
  intro C. unfold u16 in C. pose proof (Z.mod_pos_bound plen 65536 ltac:(lia)).
  assert (W : 64 <= (plen mod 65536 + 4) mod 65536 <= 1518 <-> 60 <= plen mod 65536 <= 1514).
  { split; intro; [|rewrite Z.mod_small; lia]. destruct (Z_lt_le_dec (plen mod 65536 + 4) 65536) as [Q|Q]; [rewrite Z.mod_small in H0; lia|].
    exfalso. replace (plen mod 65536 + 4) with ((plen mod 65536 + 4 - 65536) + 1 * 65536) in H0 by lia. rewrite Z.mod_add in H0 by lia. rewrite Z.mod_small in H0; lia. }
  split.
  - intros R t K. destruct (C t K) as [A B]. split; intros; [rewrite A in R by auto|rewrite B in R by auto]; lia.
  - intros LL. destruct (contents_ex f) as (t & K). destruct (C t K) as [A B]. destruct (LL t K) as [A' B'].
    destruct (Z.eq_dec off 16), (Z_le_gt_dec t 1500); try (rewrite A by auto; lia). rewrite B by auto. apply B'; auto.
Qed.

Lemma ok3_inj {A B C} (a a' : A) (b b' : B) (c c' : C) : Ok (Some (a, b, c)) = Ok (Some (a', b', c')) -> a = a' /\ b = b' /\ c = c'.
Proof. intro E. injection E. auto. Qed.
Lemma ok2_inj {A B} (a a' : A) (b b' : B) : Ok (Some (a, b)) = Ok (Some (a', b')) -> a = a' /\ b = b'.
Proof. intro E. injection E. auto. Qed.
Lemma data_len tot k n : u16 (tot - k) = n -> 0 <= tot < 65536 -> 0 <= k <= 120 -> n <= 1500 -> n = tot - k /\ 0 <= n.
Proof.
  unfold u16. intros <- T K N. destruct (Z_le_gt_dec k tot).
  - rewrite Z.mod_small in * by lia. lia.
  - exfalso. replace (tot - k) with ((tot - k + 65536) + (-1) * 65536) in N by lia. rewrite Z.mod_add, Z.mod_small in N; lia.
Qed.
Lemma hdr_words_cases v : hdr_words v < 5 \/ (hdr_words v = 5 /\ In (v mod 16) [5; 7; 13; 15]).
Proof.
  unfold hdr_words. pose proof (Z.mod_pos_bound v 16 ltac:(lia)) as B. set (w := v mod 16) in *. clearbody w.
  assert (D : w = 0 \/ w = 1 \/ w = 2 \/ w = 3 \/ w = 4 \/ w = 5 \/ w = 6 \/ w = 7 \/ w = 8 \/ w = 9 \/ w = 10 \/ w = 11 \/ w = 12 \/ w = 13 \/ w = 14 \/ w = 15) by lia.
  repeat (destruct D as [->|D]; [first [left; reflexivity|right; split; [reflexivity|cbn; tauto]]|]). subst w. right. split; [reflexivity|cbn; tauto].
Qed.
Lemma received_sound off plen f data i : 0 <= off -> process_packet off plen f = Ok (Some (data, i)) ->
  14 <= zlen f /\ (tagged f -> 18 <= zlen f) /\ legal_length off f (plen mod 65536) /\
  exists l ip pad, f = l ++ ip ++ pad /\ link_length off f (zlen l) /\ In (header_words ip) [5; 7; 13; 15] /\ read_plain ip i data /\ 140 <= zlen data <= 1500.
Proof.
  intros O E. unfold process_packet in E. destruct (zlen f <? ETHER_HDR_LEN) eqn:L; [discriminate|]. unfold ETHER_HDR_LEN in L. bools.
  split; auto. pose proof (link_spec off (u16 plen) f L) as K. destruct (link_header off (u16 plen) f) as [[ip len]|]; [|discriminate]. cbn [bind] in E.
  destruct K as (K1 & K2 & K3). split; auto.
  destruct (negb _) eqn:LV; [discriminate|]. unfold ETHER_MIN_LEN, ETHER_MAX_LEN in LV. bools. apply legal_iff in K3. split; [apply K3; lia|].
  destruct (ip + 20 >? zlen f) eqn:I20; [discriminate|]. bools. pose proof (link_nonneg _ _ _ O K2) as I0.
  rewrite rd_spec in E. destruct ((0 <=? ip) && (ip + 1 <=? zlen f)) eqn:B1; [|discriminate]. cbn [bind] in E.
  destruct (hdr_words_cases (field (Z.to_nat ip) 1 f)) as [WB|[WE WI]].
  { replace (hdr_words (field (Z.to_nat ip) 1 f) <? 5) with true in E by (symmetry; apply Z.ltb_lt; auto). discriminate. }
  rewrite WE in E. change (5 <? 5) with false in E. cbv iota in E.
  set (words := 5) in E. assert (W16 : words = 5) by reflexivity. clearbody words.
  rewrite rd16_spec in E. destruct ((0 <=? ip + 2) && (ip + 2 + 2 <=? zlen f)); [|discriminate]. cbn [bind] in E.
  set (tot := field (Z.to_nat (ip + 2)) 2 f) in E. pose proof (field_2_range f (Z.to_nat (ip + 2))) as TR. fold tot in TR.
  destruct (ip + tot >? zlen f) eqn:IT; [discriminate|]. bools.
  rewrite !rd32_spec in E. destruct ((0 <=? ip + 12) && (ip + 12 + 4 <=? zlen f)); [|discriminate]. destruct ((0 <=? ip + 16) && (ip + 16 + 4 <=? zlen f)); [|discriminate]. cbn [bind] in E.
  rewrite rd_spec in E. destruct ((0 <=? ip + 9) && (ip + 9 + 1 <=? zlen f)); [|discriminate]. cbn [bind] in E.
  set (proto := field (Z.to_nat (ip + 9)) 1 f) in E.
  destruct (transport_header f proto (ip + 4 * words)) as [[[[sport dport] dpos]|]|] eqn:TH; try discriminate. cbn [bind] in E.
  destruct (cut f ip tot I0 ltac:(lia) ltac:(lia)) as (l & d & pad & F & LL & LD).
  assert (HD : exists hl, dpos = ip + 4 * words + hl /\ 0 <= hl <= 60 /\
    ((proto = 6 /\ hl = 4 * (field (Z.to_nat (ip + 4 * words + 12)) 1 f / 16) /\ sport = field (Z.to_nat (ip + 4 * words)) 2 f /\ dport = field (Z.to_nat (ip + 4 * words + 2)) 2 f) \/
     (proto = 17 /\ hl = 8 /\ sport = field (Z.to_nat (ip + 4 * words)) 2 f /\ dport = field (Z.to_nat (ip + 4 * words + 2)) 2 f) \/
     (proto = 1 /\ hl = 8 /\ sport = 0 /\ dport = 0))).
  { unfold transport_header in TH. destruct (proto =? 6) eqn:P6; [|destruct (proto =? 17) eqn:P17; [|destruct (proto =? 1) eqn:P1; [|discriminate]]]; bools.
    - rewrite !rd16_spec, rd_spec in TH. destruct (_ && _); [|discriminate]. destruct (_ && _); [|discriminate]. destruct (_ && _); [|discriminate]. cbn [bind] in TH.
      apply ok3_inj in TH; destruct TH as (<- & <- & <-). pose proof (field_1_range f (Z.to_nat (ip + 4 * words + 12))) as R. set (w := field (Z.to_nat (ip + 4 * words + 12)) 1 f) in *.
      assert (0 <= w / 16 < 16) by (split; [apply Z.div_pos; lia|apply Z.div_lt_upper_bound; lia]). exists (4 * (w / 16)). split; [lia|]. split; [lia|]. left. repeat split; auto.
    - rewrite !rd16_spec in TH. destruct (_ && _); [|discriminate]. destruct (_ && _); [|discriminate]. cbn [bind] in TH. apply ok3_inj in TH; destruct TH as (<- & <- & <-).
      exists 8. split; [lia|]. split; [lia|]. right. left. repeat split; auto.
    - apply ok3_inj in TH; destruct TH as (<- & <- & <-). exists 8. split; [lia|]. split; [lia|]. right. right. repeat split; auto. }
  destruct HD as (hl & -> & HL & HD). destruct (u16 (tot - (ip + 4 * words + hl - ip)) <? MIN_SPA_DATA_SIZE) eqn:MI; [discriminate|].
  destruct (u16 (tot - (ip + 4 * words + hl - ip)) >? MAX_SPA_PACKET_LEN) eqn:MA; [discriminate|]. unfold MIN_SPA_DATA_SIZE, MAX_SPA_PACKET_LEN in *. bools.
  destruct (data_len _ _ _ eq_refl TR (ltac:(lia) : 0 <= ip + 4 * words + hl - ip <= 120) MA) as [N1 N2]. rewrite N1 in *. clear N1.
  set (n := tot - (ip + 4 * words + hl - ip)) in *. assert (ND : n = tot - 4 * words - hl) by (unfold n; lia). clearbody n. destruct (_ && _) eqn:B2; [|discriminate]. apply ok2_inj in E. destruct E as (<- & <-).
  exists l, d, pad. split; auto. split; [congruence|].
  assert (LDn : length d = Z.to_nat tot) by (unfold zlen in LD; lia).
  assert (FP : forall j k, 0 <= j -> j + Z.of_nat k <= tot -> field (Z.to_nat (ip + j)) k f = field (Z.to_nat j) k d).
  { intros. rewrite F, <- LL. apply field_part; lia. }
  assert (WD : In (header_words d) [5; 7; 13; 15]). { unfold header_words. pose proof (FP 0 1%nat ltac:(lia) ltac:(lia)) as F0. rewrite Z.add_0_r in F0. change (Z.to_nat 0) with 0%nat in F0. rewrite <- F0. exact WI. }
  set (h := ztake (4 * words) d). set (seg := zdrop (4 * words) d).
  assert (HZ : zlen h = 4 * words) by (unfold h, ztake, zlen; rewrite firstn_length; lia).
  assert (SZ : zlen seg = tot - 4 * words) by (unfold seg, zdrop, zlen; rewrite skipn_length; lia).
  assert (SF : forall j k, 0 <= j -> 4 * words + j + Z.of_nat k <= tot -> field (Z.to_nat (ip + 4 * words + j)) k f = field (Z.to_nat j) k seg).
  { intros. replace (ip + 4 * words + j) with (ip + (4 * words + j)) by lia. rewrite FP by lia.
    rewrite <- (ztake_zdrop (4 * words) d) at 1. fold h seg. rewrite <- (app_nil_r seg) at 1. rewrite <- HZ. apply field_part; [lia|]. unfold zlen in SZ. lia. }
  assert (DATA : ztake n (zdrop (ip + 4 * words + hl) f) = zdrop hl seg).
  { unfold seg. rewrite F. replace (zdrop (ip + 4 * words + hl) (l ++ d ++ pad)) with (zdrop (4 * words + hl) d ++ pad).
    - replace (zdrop hl (zdrop (4 * words) d)) with (zdrop (4 * words + hl) d) by (unfold zdrop; rewrite skipn_skipn; f_equal; lia).
      apply ztake_app. unfold zdrop, zlen. rewrite skipn_length. lia.
    - unfold zdrop. rewrite (skipn_app _ l), (skipn_all2 l) by (unfold zlen in LL; lia). cbn [app]. rewrite skipn_app.
      replace (Z.to_nat (ip + 4 * words + hl) - length l)%nat with (Z.to_nat (4 * words + hl)) by (unfold zlen in LL; lia).
      replace (Z.to_nat (4 * words + hl) - length d)%nat with 0%nat by lia. reflexivity. }
  assert (DL : zlen (zdrop hl seg) = n) by (unfold zdrop, zlen in *; rewrite skipn_length; lia).
  rewrite DATA. split; [exact WD|]. split; [|rewrite DL; lia]. exists h, seg. split; [unfold h, seg; symmetry; apply ztake_zdrop|]. split; [lia|].
  cbn [p_proto p_src p_dst p_sport p_dport].
  assert (tot = field 2 2 d) by (unfold tot; apply (FP 2 2%nat); lia).
  split; [lia|]. split; [unfold proto; apply (FP 9 1%nat); lia|]. split; [apply (FP 12 4%nat); lia|]. split; [apply (FP 16 4%nat); lia|].
  exists (ztake hl seg). split; [symmetry; apply ztake_zdrop|].
  assert (HLZ : zlen (ztake hl seg) = hl) by (unfold ztake, zlen in *; rewrite firstn_length; lia). rewrite HLZ.
  destruct HD as [(P & Q1 & Q2 & Q3)|[(P & Q1 & Q2 & Q3)|(P & Q1 & Q2 & Q3)]].
  - left. split; auto. replace (ip + 4 * words) with (ip + 4 * words + 0) in Q2 by lia. rewrite SF in Q1, Q2, Q3 by lia. auto.
  - right. left. split; auto. replace (ip + 4 * words) with (ip + 4 * words + 0) in Q2 by lia. rewrite SF in Q2, Q3 by lia. auto.
  - right. right. auto.
Qed.

Lemma leb_both a b c : 0 <= a -> b <= c -> (0 <=? a) && (b <=? c) = true.
Proof. intros. apply andb_true_iff. split; apply Z.leb_le; auto. Qed.
Lemma received_complete off plen f data i l ip pad : 0 <= off -> 14 <= zlen f -> (tagged f -> 18 <= zlen f) -> legal_length off f (plen mod 65536) ->
  f = l ++ ip ++ pad -> link_length off f (zlen l) -> In (header_words ip) [5; 7; 13; 15] -> read_plain ip i data -> 140 <= zlen data <= 1500 ->
  process_packet off plen f = Ok (Some (data, i)).
Proof.
  intros O L T LE F LL HW (h & seg & I & HZ & TOT & PR & SR & DS & (th & SG & TR)) DL.
  unfold process_packet. unfold ETHER_HDR_LEN. replace (zlen f <? 14) with false by (symmetry; apply Z.ltb_ge; lia).
  pose proof (link_spec off (u16 plen) f L) as K. destruct (link_header off (u16 plen) f) as [[n len]|]; [|destruct K as [K1 K2]; specialize (T K1); lia].
  destruct K as (_ & K2 & K3). rewrite <- (link_length_fun _ _ _ _ LL K2) in *. clear K2. cbn [bind].
  apply legal_iff in K3. apply K3 in LE. unfold ETHER_MIN_LEN, ETHER_MAX_LEN.
  replace (negb _) with false by (symmetry; apply negb_false_iff; apply andb_true_iff; split; apply Z.leb_le; lia).
  pose proof (zlen_nonneg l) as Ln. pose proof (zlen_nonneg pad) as Pn. pose proof (zlen_nonneg th) as Tn.
  assert (ZF : zlen f = zlen l + zlen ip + zlen pad) by (rewrite F, !zlen_app; lia).
  assert (ZI : zlen ip = zlen h + zlen seg) by (rewrite I, zlen_app; lia).
  assert (ZS : zlen seg = zlen th + zlen data) by (rewrite SG, zlen_app; lia).
  replace (zlen l + 20 >? zlen f) with false by (symmetry; rewrite Z.gtb_ltb; apply Z.ltb_ge; lia).
  assert (FP : forall j k, 0 <= j -> j + Z.of_nat k <= zlen ip -> field (Z.to_nat (zlen l + j)) k f = field (Z.to_nat j) k ip).
  { intros. rewrite F. apply field_part; unfold zlen in *; lia. }
  assert (SF : forall j k, 0 <= j -> j + Z.of_nat k <= zlen seg -> field (Z.to_nat (zlen l + (zlen h + j))) k f = field (Z.to_nat j) k seg).
  { intros. rewrite FP by lia. rewrite I. rewrite <- (app_nil_r seg) at 1. apply field_part; unfold zlen in *; lia. }
  rewrite rd_spec, leb_both by lia. cbn [bind]. replace (field (Z.to_nat (zlen l)) 1 f) with (field 0 1 ip).
  2:{ symmetry. replace (zlen l) with (zlen l + 0) by lia. apply (FP 0 1%nat); lia. }
  assert (WE : hdr_words (field 0 1 ip) = 5).
  { unfold hdr_words. unfold header_words in HW. destruct HW as [W|[W|[W|[W|[]]]]]; rewrite <- W; reflexivity. }
  rewrite WE. change (5 <? 5) with false. cbv iota. assert (H5 : zlen h = 4 * 5) by lia.
  rewrite rd16_spec, leb_both by lia. cbn [bind]. rewrite (FP 2 2%nat) by lia. change (Z.to_nat 2) with 2%nat. rewrite <- TOT.
  replace (zlen l + zlen ip >? zlen f) with false by (symmetry; rewrite Z.gtb_ltb; apply Z.ltb_ge; lia).
  rewrite !rd32_spec, !leb_both by lia. cbn [bind]. rewrite (FP 12 4%nat), (FP 16 4%nat) by lia. rewrite rd_spec, leb_both by lia. cbn [bind]. rewrite (FP 9 1%nat) by lia.
  change (Z.to_nat 12) with 12%nat. change (Z.to_nat 16) with 16%nat. change (Z.to_nat 9) with 9%nat. rewrite <- PR, <- SR, <- DS. rewrite <- H5.
  assert (TT : transport_header f (p_proto i) (zlen l + zlen h) = Ok (Some (p_sport i, p_dport i, zlen l + zlen h + zlen th)) /\ zlen th <= 60).
  { unfold transport_header. pose proof (SF 0 2%nat) as S0. pose proof (SF 2 2%nat) as S2. pose proof (SF 12 1%nat) as S12.
    replace (zlen l + (zlen h + 0)) with (zlen l + zlen h) in S0 by lia. replace (zlen l + (zlen h + 2)) with (zlen l + zlen h + 2) in S2 by lia.
    replace (zlen l + (zlen h + 12)) with (zlen l + zlen h + 12) in S12 by lia.
    change (Z.to_nat 0) with 0%nat in S0. change (Z.to_nat 2) with 2%nat in S2. change (Z.to_nat 12) with 12%nat in S12.
    destruct TR as [(-> & A & B & C)|[(-> & A & B & C)|(-> & A & B & C)]].
    - change (6 =? 6) with true. cbn [andb]. rewrite !rd16_spec, rd_spec, !leb_both by lia. cbn [bind]. rewrite S0, S2, S12 by lia.
      rewrite B, C. pose proof (field_1_range seg 12) as R. assert (0 <= field 12 1 seg / 16 < 16) by (split; [apply Z.div_pos; lia|apply Z.div_lt_upper_bound; lia]).
      split; [|lia]. do 2 f_equal. f_equal. lia.
    - change (17 =? 6) with false. change (17 =? 17) with true. rewrite !rd16_spec, !leb_both by lia. cbn [bind]. rewrite S0, S2 by lia. rewrite B, C, A. split; [|lia]. reflexivity.
    - change (1 =? 6) with false. change (1 =? 17) with false. change (1 =? 1) with true. rewrite B, C, A. split; [reflexivity|lia]. }
  destruct TT as [TT T60]. rewrite TT. cbn [bind]. replace (zlen ip - (zlen l + zlen h + zlen th - zlen l)) with (zlen data) by lia.
  unfold u16. rewrite Z.mod_small by lia. unfold MIN_SPA_DATA_SIZE, MAX_SPA_PACKET_LEN.
  replace (zlen data <? 140) with false by (symmetry; apply Z.ltb_ge; lia). replace (zlen data >? 1500) with false by (symmetry; rewrite Z.gtb_ltb; apply Z.ltb_ge; lia).
  rewrite leb_both by lia. do 2 f_equal. f_equal.
  - rewrite F, I, SG, <- !app_assoc. rewrite (app_assoc l h), (app_assoc (l ++ h) th). rewrite zdrop_app by (rewrite !zlen_app; lia). apply ztake_app. reflexivity.
  - destruct i; reflexivity.
Qed.
Lemma plain_datagram ip i data : header_words ip = 5 -> datagram ip i data <-> read_plain ip i data.
Proof.
  unfold header_words. intro W. split.
  - intros (h & seg & I & HZ & _ & R). exists h, seg. rewrite W in HZ. split; [exact I|]. split; [lia|exact R].
  - intros (h & seg & I & HZ & R). exists h, seg. split; [exact I|]. split; [lia|]. split; [lia|exact R].
Qed.
(** No access outside of the frame, if the start of the second header is within it. *)
Lemma received_no_fault off plen f : 0 <= off -> (tagged f -> 18 <= zlen f) ->
  (forall n, legal_length off f (plen mod 65536) -> link_length off f n -> n + 33 <= zlen f) ->
  process_packet off plen f <> Fault.
Proof.
  intros O T HS E. unfold process_packet in E. destruct (zlen f <? ETHER_HDR_LEN) eqn:L; [discriminate|]. unfold ETHER_HDR_LEN in L. bools.
  pose proof (link_spec off (u16 plen) f L) as K. destruct (link_header off (u16 plen) f) as [[ip len]|]; [|destruct K as [K1 K2]; specialize (T K1); lia]. cbn [bind] in E.
  destruct K as (K1 & K2 & K3). destruct (negb _) eqn:LV; [discriminate|]. unfold ETHER_MIN_LEN, ETHER_MAX_LEN in LV. bools. apply legal_iff in K3.
  destruct (ip + 20 >? zlen f) eqn:I20; [discriminate|]. bools. pose proof (link_nonneg _ _ _ O K2) as I0. specialize (HS ip (proj1 K3 ltac:(lia)) K2).
  rewrite rd_spec, leb_both in E by lia. cbn [bind] in E.
  destruct (hdr_words_cases (field (Z.to_nat ip) 1 f)) as [WB|[WE WI]].
  { replace (hdr_words (field (Z.to_nat ip) 1 f) <? 5) with true in E by (symmetry; apply Z.ltb_lt; auto). discriminate. }
  rewrite WE in E. change (5 <? 5) with false in E. cbv iota in E.
  set (words := 5) in E. assert (W16 : words = 5) by reflexivity. clearbody words.
  rewrite rd16_spec, leb_both in E by lia. cbn [bind] in E.
  set (tot := field (Z.to_nat (ip + 2)) 2 f) in E. pose proof (field_2_range f (Z.to_nat (ip + 2))) as TR. fold tot in TR.
  destruct (ip + tot >? zlen f) eqn:IT; [discriminate|]. bools.
  rewrite !rd32_spec, !leb_both in E by lia. cbn [bind] in E. rewrite rd_spec, leb_both in E by lia. cbn [bind] in E.
  set (proto := field (Z.to_nat (ip + 9)) 1 f) in E.
  assert (HD : transport_header f proto (ip + 4 * words) = Ok None \/ exists sport dport hl, transport_header f proto (ip + 4 * words) = Ok (Some (sport, dport, ip + 4 * words + hl)) /\ 0 <= hl <= 60).
  { unfold transport_header. rewrite !rd16_spec, rd_spec, !leb_both by lia. cbn [bind].
    destruct (proto =? 6); [|destruct (proto =? 17); [|destruct (proto =? 1); [|auto]]]; right; do 2 eexists.
    - pose proof (field_1_range f (Z.to_nat (ip + 4 * words + 12))) as R. set (w := field (Z.to_nat (ip + 4 * words + 12)) 1 f) in *.
      assert (0 <= w / 16 < 16) by (split; [apply Z.div_pos; lia|apply Z.div_lt_upper_bound; lia]). exists (4 * (w / 16)).
      split; [|lia]. replace (ip + 4 * words + 20 + 4 * (w / 16) - 20) with (ip + 4 * words + 4 * (w / 16)) by lia. reflexivity.
    - exists 8. split; [reflexivity|lia].
    - exists 8. split; [reflexivity|lia]. }
  destruct HD as [HD|(sport & dport & hl & HD & HL)]; rewrite HD in E; cbn [bind] in E; [discriminate|].
  destruct (u16 (tot - (ip + 4 * words + hl - ip)) <? MIN_SPA_DATA_SIZE) eqn:MI; [discriminate|].
  destruct (u16 (tot - (ip + 4 * words + hl - ip)) >? MAX_SPA_PACKET_LEN) eqn:MA; [discriminate|]. unfold MIN_SPA_DATA_SIZE, MAX_SPA_PACKET_LEN in *. bools.
  destruct (data_len _ _ _ eq_refl TR (ltac:(lia) : 0 <= ip + 4 * words + hl - ip <= 120) MA) as [N1 N2]. rewrite N1 in E.
  rewrite leb_both in E by lia. discriminate.
Qed.

(** A frame of which at least the legal length is there. *)
Lemma received_whole off plen f : 0 <= off <= 16 -> (tagged f -> 18 <= zlen f) -> (60 <= zlen f \/ plen mod 65536 <= zlen f) -> process_packet off plen f <> Fault.
Proof.
  intros O T W. apply received_no_fault; auto; [lia|]. intros n LL (o & t & Q & C & A). destruct (LL t C) as [A1 A2].
  assert (60 <= zlen f) by (destruct A as [(B & _)|[(B & _)|(B & B' & _)]]; [specialize (A1 B)|specialize (A1 B)|specialize (A2 B B')]; lia).
  assert (o <= 20) by (destruct Q as [[_ ?]|[_ ?]]; lia). lia.
Qed.

(** ** The packet handed on *)
Lemma deliver_ok old data i : zlen old = 1501 -> zlen data <= 1500 -> 0 <= p_src i < 4294967296 -> 0 <= p_dst i < 4294967296 ->
  packet_ok (deliver old data i) /\ payload (deliver old data i) = data /\ k_info (deliver old data i) = i /\ zlen (k_buf (deliver old data i)) = 1501.
Proof.
  intros OL L SR D. pose proof (zlen_nonneg data). unfold deliver, payload. cbn [k_buf k_len k_info].
  assert (Z : zlen (data ++ x00 :: zdrop (zlen data + 1) old) = 1501) by (rewrite zlen_app, zlen_cons, zlen_zdrop by lia; lia).
  split; [|split; [apply ztake_app; reflexivity|auto]]. constructor; cbn [k_buf k_len k_info]; auto; try lia.
  change (x00 :: zdrop (zlen data + 1) old) with ([x00] ++ zdrop (zlen data + 1) old). rewrite app_assoc.
  rewrite ztake_app by (rewrite zlen_app; reflexivity). apply in_or_app. right. left. reflexivity.
Qed.
Lemma plain_ranges ip i data : read_plain ip i data -> 0 <= p_src i < 4294967296 /\ 0 <= p_dst i < 4294967296.
Proof. intros (h & seg & _ & _ & _ & _ & -> & -> & _). split; apply field_4_range. Qed.
Lemma datagram_ranges ip i data : datagram ip i data -> 0 <= p_src i < 4294967296 /\ 0 <= p_dst i < 4294967296.
Proof. intros (h & seg & _ & _ & _ & _ & _ & -> & -> & _). split; apply field_4_range. Qed.

Lemma udp_ok old m src sport port p : zlen old = 1501 -> zlen m <= 1500 -> 0 <= src < 4294967296 -> udp_receive old (Some m) src sport port = Ok p ->
  packet_ok p /\ k_len p = zlen m /\ k_info p = mkPkt 17 src sport 0 port /\ zlen (k_buf p) = 1501 /\
  ((no_nul m /\ payload p = m) \/ exists a b stale, m = a ++ x00 :: b /\ no_nul a /\ payload p = a ++ x00 :: stale).
Proof.
  intros OL L SR E. cbn [udp_receive] in E. apply (f_equal (fun o => match o with Ok x => x | Fault => p end)) in E. cbn beta iota in E. subst p. pose proof (zlen_nonneg m).
  pose proof (strlcpy_stores_spec (cstr m) (zlen m + 1) ltac:(lia)) as W.
  assert (C : zlen (cstr m) <= zlen m). { destruct (cstr_prefix m) as (t & Q & _). rewrite Q at 2. rewrite zlen_app. pose proof (zlen_nonneg t). lia. }
  replace (zlen m + 1 - 1) with (zlen m) in W by lia. rewrite ztake_all in W by lia.
  unfold strlcpy. cbn [fst]. rewrite W. pose proof (zlen_nonneg (cstr m)).
  assert (Z1 : zlen (cstr m ++ [x00]) = zlen (cstr m) + 1) by (rewrite zlen_app; reflexivity).
  assert (Z : zlen ((cstr m ++ [x00]) ++ zdrop (zlen (cstr m ++ [x00])) old) = 1501) by (rewrite zlen_app, zlen_zdrop, Z1 by lia; lia).
  split; [|split; [|split; [|split]]]; auto.
  - constructor; cbn [k_buf k_len k_info p_src p_dst]; auto; try lia.
    rewrite <- app_assoc. cbn [app]. unfold ztake. rewrite firstn_app. apply in_or_app. right.
    replace (Z.to_nat (zlen m + 1) - length (cstr m))%nat with (S (Z.to_nat (zlen m) - length (cstr m))) by (unfold zlen in *; lia). left. reflexivity.
  - unfold payload. cbn [k_len k_buf]. destruct (cstr_prefix m) as (t & Q & [->|(u & ->)]).
    + left. rewrite app_nil_r in Q. split; [rewrite Q; apply cstr_no_nul|]. rewrite <- app_assoc, <- Q. apply ztake_app. reflexivity.
    + right. exists (cstr m), u, (ztake (zlen m - zlen (cstr m) - 1) (zdrop (zlen (cstr m ++ [x00])) old)). split; auto. split; [apply cstr_no_nul|].
      assert (zlen m = zlen (cstr m) + 1 + zlen u) by (rewrite Q at 1; rewrite zlen_app, zlen_cons; lia). pose proof (zlen_nonneg u).
      rewrite <- app_assoc. unfold ztake at 1. rewrite firstn_app, firstn_all2 by (unfold zlen in *; lia). f_equal. cbn [app].
      replace (Z.to_nat (zlen m) - length (cstr m))%nat with (S (Z.to_nat (zlen m - zlen (cstr m) - 1))) by (unfold zlen in *; lia). reflexivity.
Qed.
(** What was in the array before does not matter. *)
Lemma carries_prefix cf p q a x y data : no_nul a -> payload p = a ++ x00 :: x -> payload q = a ++ x00 :: y -> data_ok data -> carries cf p data -> carries cf q data.
Proof.
  intros NA P Q (_ & DB) C. assert (NB : ~ b64_or_eq x00).
  { intros [B|B]; [|discriminate]. revert B. unfold is_b64_char. vm_compute. intuition discriminate. }
  assert (HT : forall p' q' x' y', payload p' = a ++ x00 :: x' -> payload q' = a ++ x00 :: y' -> is_http cf p' -> is_http cf q').
  { intros p' q' x' y' P' Q' (ON & g & r & E & LG). split; auto. exists g. rewrite P' in E.
    assert (GL : zlen g = 5). { assert (K : zlen (lower g) = 5) by (rewrite LG; reflexivity). revert K. unfold zlen. rewrite lower_tolower, map_length. auto. }
    assert (G0 : no_nul g). { intro I0. apply (in_map tolower) in I0. rewrite <- lower_tolower, LG in I0. cbn in I0. repeat (destruct I0 as [I0|I0]; [discriminate|]). exact I0. }
    destruct (Z_le_gt_dec 5 (zlen a)) as [A5|A5].
    - exists (zdrop 5 a ++ x00 :: y'). split; [|exact LG]. rewrite Q'. rewrite app_assoc. f_equal. rewrite <- (ztake_zdrop 5 a) in E. rewrite <- app_assoc in E. apply app_eq_len in E.
      + destruct E as [E _]. rewrite <- (ztake_zdrop 5 a) at 1. rewrite E. reflexivity.
      + rewrite GL. unfold ztake, zlen in *. rewrite firstn_length. lia.
    - exfalso. apply G0. assert (G5 : g = ztake 5 (a ++ x00 :: x')) by (rewrite E; symmetry; apply ztake_app; auto). rewrite G5. unfold ztake. rewrite firstn_app. apply in_or_app. right.
      replace (Z.to_nat 5 - length a)%nat with (S (4 - length a)) by (unfold zlen in *; lia). left. reflexivity. }
  destruct C as [(HP & path & (g & rest & E & LG & NBL & RE) & D)|(HN & D)].
  - left. split; [eapply HT; eauto|]. exists path. split; auto.
    assert (GL : zlen g = 5). { assert (K : zlen (lower g) = 5) by (rewrite LG; reflexivity). revert K. unfold zlen. rewrite lower_tolower, map_length. auto. }
    assert (G0 : no_nul g). { intro I0. apply (in_map tolower) in I0. rewrite <- lower_tolower, LG in I0. cbn in I0. repeat (destruct I0 as [I0|I0]; [discriminate|]). exact I0. }
    assert (P0 : no_nul path). { intro I0. apply NB. rewrite Forall_forall in DB. apply DB. rewrite D. change x00 with (url_back x00). apply in_map. exact I0. }
    assert (GP : no_nul (g ++ path)). { intro I0. apply in_app_or in I0. destruct I0 as [I0|I0]; auto. }
    rewrite P in E. rewrite app_assoc in E.
    assert (SP : exists c, a = (g ++ path) ++ c /\ c ++ x00 :: x = rest).
    { clear -E NA GP. revert E GP. generalize (g ++ path). intro w. revert a NA. induction w as [|c w IH]; intros a NA E GP.
      - exists a. auto.
      - destruct a as [|d a]; cbn [app] in E.
        + exfalso. injection E as E _. apply GP. left. auto.
        + injection E as <- E. destruct (IH a) as (c' & A' & B'); auto.
          * intro I0. apply NA. right. auto. * intro I0. apply GP. right. auto.
          * exists c'. split; auto. cbn [app]. f_equal. auto. }
    destruct SP as (c & A & R). exists g, (c ++ x00 :: y). split; [rewrite Q, A, <- !app_assoc; reflexivity|]. split; auto. split; auto.
    destruct c as [|c0 c]; cbn [app] in *.
    + exfalso. destruct RE as [->|(b & r & -> & BL)]; [discriminate|]. injection R as R _. subst b. revert BL. unfold blank. vm_compute. intuition discriminate.
    + right. destruct RE as [->|(b & r & -> & BL)]; [discriminate|]. injection R as -> R. eauto.
  - exfalso. apply NB. rewrite Forall_forall in DB. apply DB. rewrite D, P. apply in_or_app. right. left. reflexivity.
Qed.
