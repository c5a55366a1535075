(** Proofs about lib/fko_encode.c and lib/fko_decode.c: helpers and the round trip. *)
From Verif Require Import P_bytes M_base64 M_util M_message M_codec S_base64 S_text S_codec
  P_base64 P_util P_util2 P_message.
From Coq Require Import Init.Byte List ZArith Lia Bool.
Import ListNotations.
Open Scope Z_scope.

Notation colon := ":"%byte.

(** ** Decimal output *)
Lemma digit_zb n : 0 <= n < 10 -> digit (zb (48 + n)) /\ bv (zb (48 + n)) - 48 = n.
Proof. intro. unfold digit. rewrite bv_zb_small by lia. lia. Qed.


Lemma fold_radix_shift base s : forall a, fold_left (fun acc c => acc * base + (bv c - 48)) s a
     = a * base ^ zlen s + fold_left (fun acc c => acc * base + (bv c - 48)) s 0.
Proof.
  induction s as [|c s IH]; intro a; cbn [fold_left].
  - change (zlen (@nil byte)) with 0. lia.
  - rewrite IH. rewrite (IH (0 * base + (bv c - 48))). rewrite zlen_cons.
    rewrite Z.pow_add_r by (pose proof (zlen_nonneg s); lia). lia.
Qed.

Lemma decimal_cons c s : decimal (c :: s) = (bv c - 48) * 10 ^ zlen s + decimal s.
Proof. unfold decimal, radix. cbn [fold_left]. rewrite fold_radix_shift. lia. Qed.

Lemma dec_go_spec f : forall n acc, 0 <= n < 10 ^ Z.of_nat f -> (0 < f)%nat -> all_digits acc ->
  all_digits (dec_go f n acc) /\ decimal (dec_go f n acc) = n * 10 ^ zlen acc + decimal acc /\
  zlen acc + 1 <= zlen (dec_go f n acc) /\
  (forall k, 1 <= k -> n < 10 ^ k -> zlen (dec_go f n acc) <= zlen acc + k).
Proof.
  induction f as [|f IH]; intros n acc Hn Hf HA; [lia|]. cbn [dec_go].
  pose proof (Z.mod_pos_bound n 10 ltac:(lia)) as M.
  destruct (digit_zb (n mod 10) M) as [D1 D2].
  assert (HA' : all_digits (zb (48 + n mod 10) :: acc)) by (constructor; auto).
  assert (DV : decimal (zb (48 + n mod 10) :: acc) = (n mod 10) * 10 ^ zlen acc + decimal acc).
  { rewrite decimal_cons, D2. reflexivity. }
  assert (LA : zlen (zb (48 + n mod 10) :: acc) = 1 + zlen acc) by (rewrite zlen_cons; reflexivity).
  pose proof (zlen_nonneg acc).
  destruct (n / 10 =? 0) eqn:E.
  - apply Z.eqb_eq in E. split; [auto|]. split; [|split; [lia|intros; lia]].
    rewrite DV. f_equal. f_equal. lia.
  - destruct f as [|f].
    { change (10 ^ Z.of_nat 1) with 10 in Hn. lia. }
    assert (P10 : 10 ^ Z.of_nat (S (S f)) = 10 * 10 ^ Z.of_nat (S f)).
    { rewrite <- Z.pow_succ_r by lia. f_equal. lia. }
    destruct (IH (n / 10) (zb (48 + n mod 10) :: acc)) as (A & B & C & D); [lia|lia|auto|].
    split; [auto|]. split; [|split; [lia|]].
    + rewrite B, DV, LA, Z.pow_add_r by lia.
      pose proof (Z.div_mod n 10 ltac:(lia)). change (10 ^ 1) with 10.
      replace (n * 10 ^ zlen acc) with ((10 * (n / 10) + n mod 10) * 10 ^ zlen acc) by (f_equal; lia). lia.
    + intros k Hk Hnk. destruct (Z.eq_dec k 1) as [->|]; [change (10^1) with 10 in Hnk; lia|].
      specialize (D (k - 1) ltac:(lia)).
      assert (10 ^ k = 10 * 10 ^ (k - 1)). { rewrite <- Z.pow_succ_r by lia. f_equal; lia. }
      specialize (D ltac:(lia)). lia.
Qed.

Lemma dec_spec n : 0 <= n < 10 ^ 20 ->
  all_digits (dec n) /\ decimal (dec n) = n /\ 1 <= zlen (dec n) /\
  (forall k, 1 <= k -> n < 10 ^ k -> zlen (dec n) <= k).
Proof.
  intro H. unfold dec. destruct (dec_go_spec 20 n []) as (A & B & C & D).
  - exact H.
  - lia.
  - constructor.
  - change (zlen (@nil byte)) with 0 in *. change (decimal []) with 0 in *.
    split; [auto|]. split; [lia|]. split; [lia|]. intros. specialize (D k). lia.
Qed.

Lemma digit_not_colon c : digit c -> c <> colon.
Proof. intros H ->. unfold digit in H. change (bv colon) with 58 in H. lia. Qed.
Lemma all_digits_no_colon s : all_digits s -> ~ In colon s.
Proof. unfold all_digits. rewrite Forall_forall. intros H I. apply H, digit_not_colon in I. congruence. Qed.
Lemma all_digits_printable s : all_digits s -> Forall printable s.
Proof. apply Forall_impl. unfold digit, printable. lia. Qed.

(** ** Base64 text inside messages *)
Notation enc64 s := (strip_b64_eq (b64_encode s)).

Lemma enc64_no_colon s : ~ In colon (enc64 s).
Proof.
  intro I. pose proof (b64_stripped_chars s) as F. rewrite Forall_forall in F.
  apply F, b64_char_ok in I. tauto.
Qed.
Lemma enc64_printable s : Forall printable (enc64 s).
Proof.
  eapply Forall_impl; [|apply b64_stripped_chars]. intros c H. unfold is_b64_char in H. unfold printable.
  assert (bv "+"%byte = 43) by reflexivity. assert (bv "/"%byte = 47) by reflexivity.
  destruct H as [?|[?|[?|[->| ->]]]]; lia.
Qed.
Lemma enc64_len s : zlen (enc64 s) = (4 * zlen s + 2) / 3.
Proof. apply b64_stripped_len. Qed.
Lemma b64_field_enc s : no_nul s -> b64_field (enc64 s) = Some s.
Proof. intro N. unfold b64_field. rewrite b64_round_trip_stripped. rewrite cstr_id; auto. Qed.

(** ** Splitting at ':' *)
Lemma split_at (c : byte) (p t p' t' : bytes) : ~ In c p -> ~ In c p' -> p ++ c :: t = p' ++ c :: t' -> p = p' /\ t = t'.
Proof.
  revert p'. induction p as [|x p IH]; intros [|y p'] N N' E; cbn in *.
  - inversion E; auto.
  - inversion E; subst. exfalso. tauto.
  - inversion E; subst. exfalso. tauto.
  - inversion E; subst. destruct (IH p') as [-> ->]; auto; tauto.
Qed.

Lemma field_app f r : ~ In colon f -> field (f ++ colon :: r) = (f, r).
Proof.
  induction f as [|c f IH]; intro N; cbn [app field].
  - rewrite beq_refl. reflexivity.
  - assert (NC : c <> colon) by (intros ->; apply N; left; auto). apply beq_neq in NC. rewrite NC.
    rewrite IH; auto. intro; apply N; right; auto.
Qed.
Lemma field_end f : ~ In colon f -> field f = (f, []).
Proof.
  induction f as [|c f IH]; intro N; cbn [field]; [reflexivity|].
  assert (NC : c <> colon) by (intros ->; apply N; left; auto). apply beq_neq in NC. rewrite NC.
  rewrite IH; auto. intro; apply N; right; auto.
Qed.
Lemma field_inv s f r : field s = (f, r) ->
  ~ In colon f /\ ((s = f ++ colon :: r) \/ (s = f /\ r = [])).
Proof.
  revert f r. induction s as [|c s IH]; intros f r H; cbn [field] in H.
  - inversion H; subst. split; auto.
  - destruct (beq_spec c colon) as [->|N].
    + inversion H; subst. split; auto.
    + destruct (field s) as [a b]. inversion H; subst. destruct (IH _ _ eq_refl) as [NI E].
      split; [intros [?|?]; [congruence|auto]|].
      destruct E as [->|[-> ->]]; [left|right]; auto.
Qed.

Definition colons (s : bytes) : Z := zlen (filter (beq colon) s).
Lemma colons_app a b : colons (a ++ b) = colons a + colons b.
Proof. unfold colons. rewrite filter_app, zlen_app. reflexivity. Qed.
Lemma colons_none s : ~ In colon s -> colons s = 0.
Proof.
  unfold colons. induction s as [|c s IH]; intro N; [reflexivity|]. cbn [filter].
  destruct (beq_spec colon c) as [<-|]; [exfalso; apply N; left; auto|]. apply IH. intro; apply N; right; auto.
Qed.
Lemma colons_colon s : colons (colon :: s) = 1 + colons s.
Proof. unfold colons. cbn [filter]. rewrite beq_refl. apply zlen_cons. Qed.
Lemma colons_nonneg s : 0 <= colons s.
Proof. apply zlen_nonneg. Qed.

Lemma num_fields_go_spec f : forall s, num_fields_go f s = Z.min (colons s) (Z.of_nat f).
Proof.
  induction f as [|f IH]; intro s; cbn [num_fields_go].
  - pose proof (colons_nonneg s). lia.
  - pose proof (strchr_split colon s) as S. destruct (strchr colon s) as [r|].
    + destruct S as (p & t & -> & -> & N). cbn [tl]. rewrite IH, colons_app, colons_colon, (colons_none p) by auto. lia.
    + rewrite colons_none by auto. lia.
Qed.
Lemma num_fields_spec s : num_fields s = Z.min (colons s) 11.
Proof. apply num_fields_go_spec. Qed.

Lemma last_field_go_spec f : forall body dg, ~ In colon dg -> colons body < Z.of_nat f ->
  last_field_go f (body ++ colon :: dg) = zlen body + 1.
Proof.
  induction f as [|f IH]; intros body dg N L; [pose proof (colons_nonneg body); lia|]. cbn [last_field_go].
  pose proof (strchr_split colon (body ++ colon :: dg)) as S.
  destruct (strchr colon (body ++ colon :: dg)) as [r|].
  2:{ exfalso. apply S, in_app_iff. right; left; auto. }
  destruct S as (p & t & E & -> & NP). cbn [tl]. rewrite E, zlen_app.
  destruct (index_of colon body) as [i|] eqn:I.
  - apply index_of_Some in I. destruct I as (a & b & -> & _ & NA).
    rewrite <- app_assoc in E. cbn [app] in E.
    assert (a = p /\ b ++ colon :: dg = t) as [-> <-].
    { apply split_at in E; auto. }
    rewrite colons_app, colons_colon in L. pose proof (colons_nonneg p).
    rewrite IH by (auto; lia). rewrite zlen_app, !zlen_cons. lia.
  - apply index_of_None in I.
    assert (body = p /\ dg = t) as [-> <-].
    { apply split_at in E; auto. }
    assert (Z0 : last_field_go f dg = 0).
    { destruct f; [reflexivity|]. cbn [last_field_go].
      pose proof (strchr_split colon dg) as S2. destruct (strchr colon dg); [|reflexivity].
      destruct S2 as (p2 & t2 & -> & -> & _). exfalso. apply N, in_app_iff. right; left; auto. }
    rewrite Z0. lia.
Qed.
Lemma last_field_spec body dg : ~ In colon dg -> colons body <= 10 ->
  last_field (body ++ colon :: dg) = zlen body + 1.
Proof. intros. apply last_field_go_spec; auto. lia. Qed.

(** ** The encoder *)
Definition enc_tail (m : spa) : bytes :=
  (match s_nat m with Some n => colon :: enc64 n | None => [] end) ++
  (match s_auth m with Some a => colon :: enc64 a | None => [] end) ++
  (if s_timeout m >? 0 then colon :: dec (s_timeout m) else []).
Definition enc_body (m : spa) : bytes :=
  s_rand m ++ colon :: enc64 (s_user m) ++ colon :: dec (s_time m) ++ colon :: s_version m ++
  colon :: dec (s_type m) ++ colon :: enc64 (s_msg m) ++ enc_tail m.

Lemma cat1024_app t s : zlen t + zlen s <= 1023 -> cat1024 t s = t ++ s.
Proof. intro. unfold cat1024, FKO_ENCODE_TMP_BUF_SIZE. apply ztake_all. rewrite zlen_app. lia. Qed.
Lemma append_b64_app t s : zlen s < 1500 -> zlen t + zlen (enc64 s) <= 1023 -> append_b64 t s = Some (t ++ enc64 s).
Proof.
  intros A B. unfold append_b64, MAX_SPA_ENCODED_MSG_SIZE. destruct (zlen s >=? 1500) eqn:E; [lia|].
  rewrite cat1024_app; auto.
Qed.

Lemma sendable_type m : sendable m -> timeout_type (s_type m) (s_timeout m) = s_type m /\
  ((s_timeout m >? 0) && negb (s_type m =? 0) = (s_timeout m >? 0)).
Proof.
  intros [_ _ _ _ T _ _ _ [B I]]. unfold timed_type in I.
  unfold timeout_type, FKO_ACCESS_MSG, FKO_NAT_ACCESS_MSG, FKO_LOCAL_NAT_ACCESS_MSG,
    FKO_CLIENT_TIMEOUT_ACCESS_MSG, FKO_CLIENT_TIMEOUT_NAT_ACCESS_MSG, FKO_CLIENT_TIMEOUT_LOCAL_NAT_ACCESS_MSG.
  generalize dependent (s_type m). generalize dependent (s_timeout m). intros to B ty T I.
  assert (C : ty = 0 \/ ty = 1 \/ ty = 2 \/ ty = 3 \/ ty = 4 \/ ty = 5 \/ ty = 6) by lia.
  destruct (to >? 0) eqn:E.
  - assert (ty = 3 \/ ty = 4 \/ ty = 6) as X by (apply I; lia). destruct X as [->|[->| ->]]; auto.
  - assert (~ (ty = 3 \/ ty = 4 \/ ty = 6)) as X by (intro Y; apply I in Y; lia).
    destruct C as [->|[->|[->|[->|[->|[->| ->]]]]]]; auto; lia.
Qed.

Definition colonf (o : option bytes) : bytes := match o with Some n => colon :: enc64 n | None => [] end.

Lemma dec_small n : 0 <= n < 10 -> zlen (dec n) = 1.
Proof.
  intro. destruct (dec_spec n) as (_ & _ & L & U); [lia|]. specialize (U 1 ltac:(lia) ltac:(lia)). lia.
Qed.
Lemma dec_time_len n : 0 <= n < 4294967296 -> 1 <= zlen (dec n) <= 10.
Proof.
  intro. destruct (dec_spec n) as (_ & _ & L & U); [lia|]. specialize (U 10 ltac:(lia) ltac:(lia)). lia.
Qed.
Lemma dec_timeout_len n : 0 <= n <= 65536 -> 1 <= zlen (dec n) <= 5.
Proof.
  intro. destruct (dec_spec n) as (_ & _ & L & U); [lia|]. specialize (U 5 ltac:(lia) ltac:(lia)). lia.
Qed.

Lemma enc64_le s k : zlen s <= k -> 0 <= k -> zlen (enc64 s) <= (4 * k + 2) / 3.
Proof. intros. rewrite enc64_len. apply Z.div_le_mono; lia. Qed.

Lemma zlen_colon : zlen ($ ":") = 1. Proof. reflexivity. Qed.
Opaque dec.

Lemma encode_text_body m : sendable m -> encode_text m = Some (enc_body m) /\ zlen (enc_body m) <= 1023.
Proof.
  intro SD. destruct (sendable_type m SD) as [TT TC].
  destruct SD as [[R1 R2] [U1 U2] T [V1 V2] Y (M1 & M2 & M3) N A [O _]].
  assert (NL : match s_nat m with Some n => zlen n <= 192 | None => True end) by (destruct (s_nat m); tauto).
  assert (AL : match s_auth m with Some n => zlen n <= 192 | None => True end) by (destruct (s_auth m); [lia|auto]).
  pose proof (dec_time_len (s_time m) ltac:(lia)) as LT.
  pose proof (dec_small (s_type m) ltac:(lia)) as LY.
  pose proof (dec_timeout_len (s_timeout m) ltac:(lia)) as LO.
  pose proof (enc64_le (s_user m) 48 U2 ltac:(lia)) as LU. pose proof (enc64_le (s_msg m) 192 M3 ltac:(lia)) as LM.
  change ((4 * 48 + 2) / 3) with 64 in LU. change ((4 * 192 + 2) / 3) with 256 in LM.
  assert (DI : dec_i (s_type m) = dec (s_type m)) by (unfold dec_i; destruct (s_type m <? 0) eqn:E; [lia|auto]).
  assert (DO : dec_i (s_timeout m) = dec (s_timeout m)).
  { unfold dec_i.
    destruct (s_timeout m <? 0) eqn:E.
    - exfalso. clear -O E. lia.
    - reflexivity. }
  split.
  - unfold encode_text. cbv zeta. unfold FKO_COMMAND_MSG. rewrite TT, TC, DI, DO. clear TT TC.
    unfold enc_body, enc_tail. rewrite u32_small by lia. clear DI DO.
    set (dt := dec (s_time m)) in *. clearbody dt.
    set (dy := dec (s_type m)) in *. clearbody dy.
    set (dto := dec (s_timeout m)) in *. clearbody dto.
    unfold FKO_ENCODE_TMP_BUF_SIZE. rewrite ztake_all by lia.
    rewrite cat1024_app by (rewrite ?zlen_colon; lia).
    rewrite append_b64_app by (rewrite ?zlen_app; rewrite ?zlen_colon; lia).
    cbn [obind].
    rewrite (cat1024_app _ ($ ":" ++ dt ++ $ ":")) by (rewrite ?zlen_app; rewrite ?zlen_colon; lia).
    rewrite (cat1024_app _ (s_version m)) by (rewrite ?zlen_app; rewrite ?zlen_colon; lia).
    rewrite (cat1024_app _ ($ ":" ++ dy ++ $ ":")) by (rewrite ?zlen_app; rewrite ?zlen_colon; lia).
    rewrite append_b64_app by (rewrite ?zlen_app; rewrite ?zlen_colon; lia).
    cbn [obind]. set (t0 := _ ++ enc64 (s_msg m)).
    assert (L0 : zlen t0 <= 16 + 1 + 64 + 12 + 8 + 3 + 256).
    { unfold t0. rewrite ?zlen_app. rewrite ?zlen_colon. lia. }
    assert (S1 : match s_nat m with Some n => append_b64 (cat1024 t0 ($ ":")) n | None => Some t0 end
                 = Some (t0 ++ colonf (s_nat m)) /\ zlen (t0 ++ colonf (s_nat m)) <= zlen t0 + 257).
    { destruct (s_nat m) as [n|]; cbn [colonf].
      - pose proof (enc64_le n 192 ltac:(assumption) ltac:(lia)) as LN; change ((4 * 192 + 2) / 3) with 256 in LN. rewrite cat1024_app by (rewrite ?zlen_colon; lia).
        rewrite append_b64_app by (rewrite ?zlen_app; rewrite ?zlen_colon; lia).
        split; [rewrite <- app_assoc; reflexivity|]. rewrite zlen_app, zlen_cons. lia.
      - rewrite app_nil_r. split; [auto|lia]. }
    destruct S1 as [-> L1]. cbn [obind]. set (t1 := t0 ++ colonf (s_nat m)) in *.
    assert (S2 : match s_auth m with Some n => append_b64 (cat1024 t1 ($ ":")) n | None => Some t1 end
                 = Some (t1 ++ colonf (s_auth m)) /\ zlen (t1 ++ colonf (s_auth m)) <= zlen t1 + 257).
    { destruct (s_auth m) as [n|]; cbn [colonf].
      - pose proof (enc64_le n 192 ltac:(assumption) ltac:(lia)) as LN; change ((4 * 192 + 2) / 3) with 256 in LN. rewrite cat1024_app by (rewrite ?zlen_colon; lia).
        rewrite append_b64_app by (rewrite ?zlen_app; rewrite ?zlen_colon; lia).
        split; [rewrite <- app_assoc; reflexivity|]. rewrite zlen_app, zlen_cons. lia.
      - rewrite app_nil_r. split; [auto|lia]. }
    destruct S2 as [-> L2]. cbn [obind]. set (t2 := t1 ++ colonf (s_auth m)) in *.
    rewrite cat1024_app by (rewrite ?zlen_app; rewrite ?zlen_colon; lia).
    f_equal. unfold t2, t1, t0, enc_body, enc_tail.
    fold (colonf (s_nat m)). fold (colonf (s_auth m)). change ($ ":") with [colon].
    destruct (s_timeout m >? 0); rewrite ?app_nil_r, <- ?app_assoc; cbn [app]; rewrite <- ?app_assoc; reflexivity.
  - clear TT TC. unfold enc_body, enc_tail. rewrite ?zlen_app, ?zlen_cons, ?zlen_app, ?zlen_cons, ?zlen_app, ?zlen_cons, ?zlen_app, ?zlen_cons,
      ?zlen_app, ?zlen_cons, ?zlen_app, ?zlen_cons, ?zlen_app.
    assert (NN : zlen (colonf (s_nat m)) <= 257).
    { destruct (s_nat m) as [n|]; cbn [colonf]; [|change (zlen (@nil byte)) with 0; lia]. rewrite zlen_cons. pose proof (enc64_le n 192 ltac:(assumption) ltac:(lia)) as LN; change ((4 * 192 + 2) / 3) with 256 in LN. lia. }
    assert (NA : zlen (colonf (s_auth m)) <= 257).
    { destruct (s_auth m) as [n|]; cbn [colonf]; [|change (zlen (@nil byte)) with 0; lia]. rewrite zlen_cons. pose proof (enc64_le n 192 ltac:(assumption) ltac:(lia)) as LN; change ((4 * 192 + 2) / 3) with 256 in LN. lia. }
    unfold colonf in NN, NA.
    assert (NO : zlen (if s_timeout m >? 0 then colon :: dec (s_timeout m) else []) <= 6).
    { destruct (s_timeout m >? 0); [rewrite zlen_cons; lia|change (zlen (@nil byte)) with 0; lia]. }
    lia.
Qed.

(** ** Decoding what was encoded *)
Lemma dec_no_colon n : 0 <= n < 10 ^ 20 -> ~ In colon (dec n).
Proof. intro. apply all_digits_no_colon. apply dec_spec; auto. Qed.

Lemma dec_strtol n min max : 0 <= n < 2147483648 -> min <= n -> (0 <= max -> n <= max) ->
  strtol_wrapper (dec n) min max = (n, STRTOL_OK).
Proof.
  intros. destruct (dec_spec n) as (A & B & _); [lia|].
  rewrite strtol_wrapper_digits; rewrite ?B; auto. lia.
Qed.

Definition enc_after_msg (m : spa) : bytes := tl (enc_tail m).
Lemma enc_tail_cases m : enc_tail m = [] \/ enc_tail m = colon :: enc_after_msg m.
Proof.
  unfold enc_after_msg, enc_tail. destruct (s_nat m), (s_auth m), (s_timeout m >? 0); cbn [app tl]; auto.
Qed.

Lemma colons_tail m : 0 <= s_timeout m <= 65536 -> colons (enc_tail m) =
  (match s_nat m with Some _ => 1 | None => 0 end) + (match s_auth m with Some _ => 1 | None => 0 end)
  + (if s_timeout m >? 0 then 1 else 0).
Proof.
  intro O. unfold enc_tail. rewrite !colons_app.
  assert (D : colons (dec (s_timeout m)) = 0) by (apply colons_none, dec_no_colon; lia).
  assert (E : forall s, colons (enc64 s) = 0) by (intro; apply colons_none, enc64_no_colon).
  destruct (s_nat m), (s_auth m), (s_timeout m >? 0); rewrite ?colons_colon, ?D, ?E; reflexivity.
Qed.

Lemma enc_after_nat m : sendable m ->
  parse_nat_msg (s_type m) (enc_after_msg m) =
  Some (s_nat m, match s_auth m with
     | Some a => enc64 a ++ (if s_timeout m >? 0 then colon :: dec (s_timeout m) else [])
     | None => if s_timeout m >? 0 then dec (s_timeout m) else []
     end).
Proof.
  intros [_ _ _ _ T _ N A [O I]]. unfold parse_nat_msg.
  destruct (s_nat m) as [n|] eqn:EN.
  - destruct N as (NT & NR & NN & NL).
    assert (X : is_nat_type (s_type m) = true).
    { unfold is_nat_type, nat_type, FKO_NAT_ACCESS_MSG, FKO_LOCAL_NAT_ACCESS_MSG, FKO_CLIENT_TIMEOUT_NAT_ACCESS_MSG, FKO_CLIENT_TIMEOUT_LOCAL_NAT_ACCESS_MSG in *. lia. }
    rewrite X.
    assert (F : field (enc_after_msg m) = (enc64 n, match s_auth m with
     | Some a => enc64 a ++ (if s_timeout m >? 0 then colon :: dec (s_timeout m) else [])
     | None => if s_timeout m >? 0 then dec (s_timeout m) else []
     end)).
    { unfold enc_after_msg, enc_tail. rewrite EN. cbn [app tl].
      destruct (s_auth m); cbn [app].
      - apply field_app, enc64_no_colon.
      - destruct (s_timeout m >? 0).
        + apply field_app, enc64_no_colon.
        + rewrite app_nil_r. apply field_end, enc64_no_colon. }
    rewrite F. cbv beta iota.
    assert (V : validate_nat_access_msg n = true).
    { apply validate_nat_access_msg_iff. split; [lia|auto]. }
    assert (LB : 1 <= zlen (enc64 n) <= 256).
    { pose proof (enc64_le n 192 NL ltac:(lia)) as LN. change ((4 * 192 + 2) / 3) with 256 in LN.
      rewrite enc64_len. rewrite enc64_len in LN. 
      assert (1 <= zlen n). { destruct NR as (h & p & -> & _). rewrite !zlen_app. change (zlen [","%byte]) with 1. pose proof (zlen_nonneg h). pose proof (zlen_nonneg p). lia. }
      lia. }
    unfold MAX_SPA_MESSAGE_SIZE.
    destruct (zlen (enc64 n) <? 1) eqn:E1; [lia|]. destruct (zlen (enc64 n) >? 256) eqn:E2; [lia|].
    cbn [negb andb guard obind]. rewrite b64_field_enc by auto. cbn [obind]. rewrite V. reflexivity.
  - assert (X : is_nat_type (s_type m) = false).
    { unfold is_nat_type, nat_type, FKO_NAT_ACCESS_MSG, FKO_LOCAL_NAT_ACCESS_MSG, FKO_CLIENT_TIMEOUT_NAT_ACCESS_MSG, FKO_CLIENT_TIMEOUT_LOCAL_NAT_ACCESS_MSG in *. lia. }
    rewrite X. unfold enc_after_msg, enc_tail. rewrite EN. cbn [app].
    destruct (s_auth m); cbn [app tl]; [reflexivity|]. destruct (s_timeout m >? 0); reflexivity.
Qed.

Lemma is_timeout_type_iff ty : is_timeout_type ty = true <-> timed_type ty.
Proof.
  unfold is_timeout_type, timed_type, FKO_CLIENT_TIMEOUT_ACCESS_MSG, FKO_CLIENT_TIMEOUT_NAT_ACCESS_MSG,
    FKO_CLIENT_TIMEOUT_LOCAL_NAT_ACCESS_MSG. lia.
Qed.
Lemma is_nat_type_iff ty : is_nat_type ty = true <-> nat_type ty.
Proof.
  unfold is_nat_type, nat_type, FKO_NAT_ACCESS_MSG, FKO_LOCAL_NAT_ACCESS_MSG, FKO_CLIENT_TIMEOUT_NAT_ACCESS_MSG, FKO_CLIENT_TIMEOUT_LOCAL_NAT_ACCESS_MSG. lia.
Qed.

Lemma strchr_none c s : ~ In c s -> strchr c s = None.
Proof.
  intro N. pose proof (strchr_split c s) as S. destruct (strchr c s); auto.
  destruct S as (p & t & -> & -> & _). exfalso. apply N, in_app_iff. right; left; auto.
Qed.
Lemma strchr_some c s : In c s -> exists r, strchr c s = Some r.
Proof. intro N. pose proof (strchr_split c s) as S. destruct (strchr c s); eauto. tauto. Qed.

Lemma parse_tail m : sendable m ->
  exists rest, parse_server_auth (s_type m) (match s_auth m with
     | Some a => enc64 a ++ (if s_timeout m >? 0 then colon :: dec (s_timeout m) else [])
     | None => if s_timeout m >? 0 then dec (s_timeout m) else []
     end) = Some (s_auth m, rest) /\ parse_client_timeout (s_type m) rest = Some (s_timeout m).
Proof.
  intros [_ _ _ _ T _ _ A [O I]]. unfold parse_server_auth, parse_client_timeout.
  pose proof (dec_timeout_len (s_timeout m) O) as LO.
  pose proof (dec_no_colon (s_timeout m) ltac:(lia)) as NC.
  assert (TO : is_timeout_type (s_type m) = (s_timeout m >? 0)).
  { destruct (s_timeout m >? 0) eqn:E.
    - apply is_timeout_type_iff, I. lia.
    - destruct (is_timeout_type (s_type m)) eqn:E2; auto. apply is_timeout_type_iff, I in E2. lia. }
  rewrite TO. unfold MAX_SPA_MESSAGE_SIZE.
  assert (FIN : s_timeout m >? 0 = true ->
     (do _ <- guard (negb (zlen (dec (s_timeout m)) <? 1) && negb (zlen (dec (s_timeout m)) >? 256));
      do _ <- guard (forallb isdigit (dec (s_timeout m)));
      (let '(v, e) := strtol_wrapper (dec (s_timeout m)) 0 65536 in
       do _ <- guard (strtol_ok e); Some (u32 v))) = Some (s_timeout m)).
  { intro G. destruct (zlen (dec (s_timeout m)) <? 1) eqn:E1; [lia|].
    destruct (zlen (dec (s_timeout m)) >? 256) eqn:E2; [lia|]. cbn [negb andb guard obind].
    rewrite (proj2 (all_digits_forallb _)) by (apply dec_spec; lia). cbn [guard obind].
    rewrite dec_strtol by lia. cbv iota beta. cbn [strtol_ok guard obind]. rewrite u32_small by lia. reflexivity. }
  destruct (s_auth m) as [a|].
  - destruct A as (AL & AN). pose proof (enc64_le a 63 ltac:(lia) ltac:(lia)) as LA. change ((4*63+2)/3) with 84 in LA.
    assert (1 <= zlen (enc64 a)) by (rewrite enc64_len; lia).
    destruct (s_timeout m >? 0) eqn:E.
    + rewrite zlen_app, zlen_cons.
      destruct (zlen (enc64 a) + (1 + zlen (dec (s_timeout m))) =? 0) eqn:E1; [lia|].
      destruct (zlen (enc64 a) + (1 + zlen (dec (s_timeout m))) >? 256) eqn:E2; [lia|].
      destruct (strchr_some colon (enc64 a ++ colon :: dec (s_timeout m))) as [r ->]; [apply in_app_iff; right; left; auto|].
      rewrite field_app by apply enc64_no_colon. cbv iota beta. rewrite b64_field_enc by auto. cbn [obind].
      eexists. split; [reflexivity|]. apply FIN; auto.
    + rewrite app_nil_r. destruct (zlen (enc64 a) =? 0) eqn:E1; [lia|]. destruct (zlen (enc64 a) >? 256) eqn:E2; [lia|].
      rewrite b64_field_enc by auto. cbn [obind]. eexists. split; [reflexivity|]. f_equal. lia.
  - destruct (s_timeout m >? 0) eqn:E.
    + destruct (zlen (dec (s_timeout m)) =? 0) eqn:E1; [lia|]. destruct (zlen (dec (s_timeout m)) >? 256) eqn:E2; [lia|].
      rewrite strchr_none by auto. eexists. split; [reflexivity|]. rewrite E2. apply FIN; auto.
    + change (zlen (@nil byte)) with 0. cbn. eexists. split; [reflexivity|]. f_equal. lia.
Qed.

Lemma username_no_nul u : username_text u -> no_nul u.
Proof.
  intros [_ F] I. rewrite Forall_forall in F. apply F in I. destruct I as [P _]. unfold printable in P.
  change (bv x00) with 0 in P. lia.
Qed.

Lemma parse_fields_body m : sendable m -> parse_fields (enc_body m) = Some m.
Proof.
  intro SD. pose proof (enc_after_nat m SD) as PN. pose proof (parse_tail m SD) as (rest & PA & PT).
  pose proof SD as SD0.
  destruct SD as [[R1 [R2 R3]] [U1 U2] T [V1 [V2 V3]] Y (M1 & M2 & M3) N A [O I]].
  unfold parse_fields, enc_body.
  unfold parse_rand_val. rewrite field_app by auto. cbv iota beta. rewrite R1.
  change (negb (16 <? FKO_RAND_VAL_SIZE)) with true. cbn [guard obind].
  unfold FKO_RAND_VAL_SIZE. rewrite ztake_all by lia.
  unfold parse_username. rewrite field_app by apply enc64_no_colon. cbv iota beta.
  pose proof (enc64_le (s_user m) 48 U2 ltac:(lia)) as LU. change ((4 * 48 + 2) / 3) with 64 in LU.
  assert (1 <= zlen (enc64 (s_user m))).
  { rewrite enc64_len. destruct U1 as [NE _]. destruct (s_user m); [congruence|]. rewrite zlen_cons. pose proof (zlen_nonneg l). lia. }
  unfold MAX_SPA_USERNAME_SIZE. destruct (zlen (enc64 (s_user m)) <? 1) eqn:E1; [lia|].
  destruct (zlen (enc64 (s_user m)) >? 64) eqn:E2; [lia|]. clear E1 E2. cbn [negb andb guard obind].
  rewrite b64_field_enc by (apply username_no_nul; auto). cbn [obind].
  rewrite (proj2 (validate_username_iff (s_user m) ltac:(lia))) by auto. cbn [guard obind].
  unfold parse_timestamp. rewrite field_app by (apply dec_no_colon; lia). cbv iota beta.
  pose proof (dec_time_len (s_time m) ltac:(lia)) as LT.
  unfold MAX_SPA_TIMESTAMP_SIZE. destruct (zlen (dec (s_time m)) <? 1) eqn:E1; [lia|].
  destruct (zlen (dec (s_time m)) >? 12) eqn:E2; [lia|]. clear E1 E2. cbn [negb andb guard obind].
  rewrite dec_strtol by lia. cbv iota beta. cbn [strtol_ok guard obind]. rewrite u32_small by lia.
  unfold parse_version. rewrite field_app by auto. cbv iota beta.
  unfold MAX_SPA_VERSION_SIZE. destruct (zlen (s_version m) <? 1) eqn:E1; [lia|].
  destruct (zlen (s_version m) >? 8) eqn:E2; [lia|]. clear E1 E2. cbn [negb andb guard obind].
  unfold parse_msg_type. rewrite field_app by (apply dec_no_colon; lia). cbv iota beta.
  pose proof (dec_small (s_type m) ltac:(lia)) as LY.
  unfold MAX_SPA_MESSAGE_TYPE_SIZE. destruct (zlen (dec (s_type m)) <? 1) eqn:E1; [lia|].
  destruct (zlen (dec (s_type m)) >? 2) eqn:E2; [lia|]. clear E1 E2. cbn [negb andb guard obind].
  rewrite dec_strtol by (unfold FKO_LAST_MSG_TYPE; lia). cbv iota beta. cbn [strtol_ok guard obind].
  rewrite num_fields_spec, colons_app, colons_colon, colons_app, (colons_none (dec (s_type m))),
    (colons_none (enc64 (s_msg m))), colons_tail by (auto using enc64_no_colon, dec_no_colon; apply dec_no_colon; lia).
  assert (MR : exists k, max_remaining (s_type m) = Some k /\
     ((match s_nat m with Some _ => 1 | None => 0 end) + (match s_auth m with Some _ => 1 | None => 0 end)
       + (if s_timeout m >? 0 then 1 else 0)) + 1 <= k /\ k <= 4).
  { assert (NB : (match s_nat m with Some _ => 1 | None => 0 end) = if is_nat_type (s_type m) then 1 else 0).
    { destruct (s_nat m).
      - destruct N as (NT & _). apply is_nat_type_iff in NT. rewrite NT. auto.
      - rewrite <- is_nat_type_iff in N. destruct (is_nat_type (s_type m)); auto. tauto. }
    assert (TB : (if s_timeout m >? 0 then 1 else 0) = if is_timeout_type (s_type m) then 1 else 0).
    { destruct (s_timeout m >? 0) eqn:E; destruct (is_timeout_type (s_type m)) eqn:E2; auto.
      - assert (timed_type (s_type m)) as X by (apply I; lia). apply is_timeout_type_iff in X. congruence.
      - apply is_timeout_type_iff, I in E2. lia. }
    rewrite NB, TB.
    assert (AB : 0 <= (match s_auth m with Some _ => 1 | None => 0 end) <= 1) by (destruct (s_auth m); lia).
    generalize dependent (match s_auth m with Some _ => 1 | None => 0 end). intros ab AB.
    clear -Y AB. generalize dependent (s_type m). intros ty Y.
    assert (C : ty = 0 \/ ty = 1 \/ ty = 2 \/ ty = 3 \/ ty = 4 \/ ty = 5 \/ ty = 6) by lia.
    destruct C as [->|[->|[->|[->|[->|[->| ->]]]]]]; eexists; (split; [reflexivity|]);
      match goal with |- context [is_nat_type ?a] => let x := eval vm_compute in (is_nat_type a) in change (is_nat_type a) with x; let y := eval vm_compute in (is_timeout_type a) in change (is_timeout_type a) with y end; cbv iota; lia. }
  destruct MR as (k & MK & B1 & B2). rewrite MK. cbn [obind].
  set (q := _ + _ + (if s_timeout m >? 0 then 1 else 0)) in B1.
  match goal with |- context [guard (negb (?x >? k))] =>
    replace x with (Z.min (1 + q) 11) by (unfold q; reflexivity) end.
  clearbody q. destruct (Z.min (1 + q) 11 >? k) eqn:E1; [clear -E1 B1 B2; lia|].
  clear E1. cbn [negb guard obind].
  unfold parse_msg.
  assert (F : field (enc64 (s_msg m) ++ enc_tail m) = (enc64 (s_msg m), enc_after_msg m)).
  { destruct (enc_tail_cases m) as [E| ->].
    - unfold enc_after_msg. rewrite E, app_nil_r. apply field_end, enc64_no_colon.
    - apply field_app, enc64_no_colon. }
  rewrite F. cbv iota beta.
  pose proof (enc64_le (s_msg m) 192 M3 ltac:(lia)) as LM. change ((4 * 192 + 2) / 3) with 256 in LM.
  assert (ML : 1 <= zlen (s_msg m)).
  { destruct (s_msg m) eqn:E; [|rewrite zlen_cons; pose proof (zlen_nonneg l); lia]. exfalso.
    destruct (s_type m =? 0).
    - destruct M1 as (ip & cmd & a & b & c & d & EE & _). destruct ip; discriminate.
    - destruct M1 as (ip & items & a & b & c & d & EE & NE & TT & _). apply ipv4_text_len in TT.
      destruct items; [congruence|]. cbn [join] in EE. destruct ip; [change (zlen (@nil byte)) with 0 in TT; lia|discriminate]. }
  assert (1 <= zlen (enc64 (s_msg m))) by (rewrite enc64_len; lia).
  unfold MAX_SPA_MESSAGE_SIZE. destruct (zlen (enc64 (s_msg m)) <? 1) eqn:E1; [lia|].
  destruct (zlen (enc64 (s_msg m)) >? 256) eqn:E2; [lia|]. clear E1 E2. cbn [negb andb guard obind].
  rewrite b64_field_enc by auto. cbn [obind].
  assert (VM : (if s_type m =? FKO_COMMAND_MSG then validate_cmd_msg (s_msg m) else validate_access_msg (s_msg m)) = true).
  { unfold FKO_COMMAND_MSG. destruct (s_type m =? 0).
    - apply validate_cmd_msg_iff. split; [lia|auto].
    - apply validate_access_msg_iff. split; [lia|auto]. }
  rewrite VM. cbn [guard obind]. rewrite PN. cbn [obind]. rewrite PA. cbn [obind]. rewrite PT. cbn [obind].
  destruct m; reflexivity.
Qed.

(** ** Digest verification *)
Lemma same_digest_iff a b len : 0 <= len <= zlen a -> len <= zlen b ->
  (same_digest a b len = true <-> ztake len a = ztake len b).
Proof.
  intros. unfold same_digest. destruct (constant_runtime_cmp_spec a b len) as (r & -> & I); auto.
  rewrite <- I. destruct r; split; intro X; auto; discriminate.
Qed.

Definition hash_len (t : Z) : Z :=
  if t =? 1 then 16 else if t =? 2 then 20 else if t =? 3 then 32 else if t =? 4 then 48
  else if t =? 5 then 64 else if t =? 6 then 32 else 64.
Lemma hash_number_len H t h d : hashes_ok H -> hash_number H t h -> zlen (h d) = hash_len t.
Proof. intros OK N. destruct (OK d) as (?&?&?&?&?&?&?). destruct N; auto. Qed.
Lemma hash_number_range H t h : hash_number H t h -> 1 <= t <= 7.
Proof. destruct 1; lia. Qed.
Lemma hash_of_number H t h : hash_of H t = Some h <-> hash_number H t h.
Proof.
  split.
  - unfold hash_of.
    destruct (t =? 1) eqn:E1; [apply Z.eqb_eq in E1; subst; intro X; inversion X; constructor|].
    destruct (t =? 2) eqn:E2; [apply Z.eqb_eq in E2; subst; intro X; inversion X; constructor|].
    destruct (t =? 3) eqn:E3; [apply Z.eqb_eq in E3; subst; intro X; inversion X; constructor|].
    destruct (t =? 4) eqn:E4; [apply Z.eqb_eq in E4; subst; intro X; inversion X; constructor|].
    destruct (t =? 5) eqn:E5; [apply Z.eqb_eq in E5; subst; intro X; inversion X; constructor|].
    destruct (t =? 6) eqn:E6; [apply Z.eqb_eq in E6; subst; intro X; inversion X; constructor|].
    destruct (t =? 7) eqn:E7; [apply Z.eqb_eq in E7; subst; intro X; inversion X; constructor|discriminate].
  - destruct 1; reflexivity.
Qed.

Lemma digest_b64_len H t h d : hashes_ok H -> hash_number H t h ->
  zlen (digest_b64 h d) = (4 * hash_len t + 2) / 3.
Proof. intros. unfold digest_b64. rewrite enc64_len, (hash_number_len H t) by auto. reflexivity. Qed.

Lemma in_tbuf_len s : zlen s <= 1024 -> zlen (in_tbuf s) = 1024.
Proof.
  intro. unfold in_tbuf, FKO_ENCODE_TMP_BUF_SIZE. rewrite zlen_app, zlen_repeat.
  pose proof (zlen_nonneg s). lia.
Qed.

Lemma try_digest dg d len : len = zlen dg -> zlen d = len -> len <= 1024 ->
  same_digest dg (in_tbuf d) len = true <-> dg = d.
Proof.
  intros -> L B. rewrite same_digest_iff.
  - rewrite ztake_all by lia. unfold in_tbuf. rewrite ztake_app by lia. reflexivity.
  - pose proof (zlen_nonneg dg). lia.
  - rewrite in_tbuf_len; lia.
Qed.

Lemma digest_type_of_len_inv n t : digest_type_of_len n = Some t ->
  1 <= t <= 5 /\ n = (4 * hash_len t + 2) / 3 /\ 22 <= n <= 86.
Proof.
  unfold digest_type_of_len, FKO_DIGEST_MD5, FKO_DIGEST_SHA1, FKO_DIGEST_SHA256, FKO_DIGEST_SHA384, FKO_DIGEST_SHA512.
  destruct (n =? 22) eqn:E1; [intro X; inversion X; subst t; vm_compute hash_len; lia|].
  destruct (n =? 27) eqn:E2; [intro X; inversion X; subst t; vm_compute hash_len; lia|].
  destruct (n =? 43) eqn:E3; [intro X; inversion X; subst t; vm_compute hash_len; lia|].
  destruct (n =? 64) eqn:E4; [intro X; inversion X; subst t; vm_compute hash_len; lia|].
  destruct (n =? 86) eqn:E5; [intro X; inversion X; subst t; vm_compute hash_len; lia|discriminate].
Qed.

Ltac digest_case := rewrite try_digest in * by
  (solve [reflexivity | auto | erewrite digest_b64_len by (eauto; constructor); assumption]).

Lemma verify_digest_sound H t0 dg data t : hashes_ok H -> digest_type_of_len (zlen dg) = Some t0 ->
  verify_digest H t0 dg data (zlen dg) = Some t ->
  exists h, hash_number H t h /\ dg = digest_b64 h data.
Proof.
  intros OK DT. apply digest_type_of_len_inv in DT. destruct DT as (R & L & B).
  unfold verify_digest, FKO_DIGEST_MD5, FKO_DIGEST_SHA1, FKO_DIGEST_SHA256, FKO_DIGEST_SHA384, FKO_DIGEST_SHA512,
    FKO_DIGEST_SHA3_256, FKO_DIGEST_SHA3_512.
  assert (TRY : forall t1 h1, hash_number H t1 h1 -> hash_len t1 = hash_len t0 ->
      same_digest dg (in_tbuf (digest_b64 h1 data)) (zlen dg) = true -> dg = digest_b64 h1 data).
  { intros t1 h1 HN HL S. apply try_digest in S; auto.
    - rewrite (digest_b64_len H t1) by auto. rewrite HL. lia.
    - lia. }
  assert (C : t0 = 1 \/ t0 = 2 \/ t0 = 3 \/ t0 = 4 \/ t0 = 5) by lia.
  destruct C as [->|[->|[->|[->| ->]]]]; cbn [Z.eqb Pos.eqb].
  - destruct (same_digest dg (in_tbuf (digest_b64 (h_md5 H) data)) (zlen dg)) eqn:S; [|discriminate].
    intro E; inversion E; subst t. exists (h_md5 H). split; [constructor|]. apply (TRY 1); auto. constructor.
  - destruct (same_digest dg (in_tbuf (digest_b64 (h_sha1 H) data)) (zlen dg)) eqn:S; [|discriminate].
    intro E; inversion E; subst t. exists (h_sha1 H). split; [constructor|]. apply (TRY 2); auto. constructor.
  - destruct (same_digest dg (in_tbuf (digest_b64 (h_sha256 H) data)) (zlen dg)) eqn:S.
    { intro E; inversion E; subst t. exists (h_sha256 H). split; [constructor|]. apply (TRY 3); auto. constructor. }
    destruct (same_digest dg (in_tbuf (digest_b64 (h_sha3_256 H) data)) (zlen dg)) eqn:S2; [|discriminate].
    intro E; inversion E; subst t. exists (h_sha3_256 H). split; [constructor|]. apply (TRY 6); auto. constructor.
  - destruct (same_digest dg (in_tbuf (digest_b64 (h_sha384 H) data)) (zlen dg)) eqn:S; [|discriminate].
    intro E; inversion E; subst t. exists (h_sha384 H). split; [constructor|]. apply (TRY 4); auto. constructor.
  - destruct (same_digest dg (in_tbuf (digest_b64 (h_sha512 H) data)) (zlen dg)) eqn:S.
    { intro E; inversion E; subst t. exists (h_sha512 H). split; [constructor|]. apply (TRY 5); auto. constructor. }
    destruct (same_digest dg (in_tbuf (digest_b64 (h_sha3_512 H) data)) (zlen dg)) eqn:S2; [|discriminate].
    intro E; inversion E; subst t. exists (h_sha3_512 H). split; [constructor|]. apply (TRY 7); auto. constructor.
Qed.

Lemma verify_digest_complete H t h data : hashes_ok H -> hash_number H t h ->
  exists t0 t', digest_type_of_len (zlen (digest_b64 h data)) = Some t0 /\
    verify_digest H t0 (digest_b64 h data) data (zlen (digest_b64 h data)) = Some t' /\
    (t <= 5 -> t' = t).
Proof.
  intros OK HN. set (dg := digest_b64 h data).
  assert (L : zlen dg = (4 * hash_len t + 2) / 3) by (unfold dg; apply (digest_b64_len H); auto).
  assert (TRY : same_digest dg (in_tbuf (digest_b64 h data)) (zlen dg) = true).
  { apply try_digest; auto. rewrite L. destruct HN; vm_compute; congruence. }
  clearbody dg. unfold verify_digest, FKO_DIGEST_MD5, FKO_DIGEST_SHA1, FKO_DIGEST_SHA256, FKO_DIGEST_SHA384, FKO_DIGEST_SHA512,
    FKO_DIGEST_SHA3_256, FKO_DIGEST_SHA3_512.
  destruct HN.
  - exists 1, 1. rewrite L at 1. split; [reflexivity|]. cbn [Z.eqb Pos.eqb]. rewrite TRY. auto.
  - exists 2, 2. rewrite L at 1. split; [reflexivity|]. cbn [Z.eqb Pos.eqb]. rewrite TRY. auto.
  - exists 3, 3. rewrite L at 1. split; [reflexivity|]. cbn [Z.eqb Pos.eqb]. rewrite TRY. auto.
  - exists 4, 4. rewrite L at 1. split; [reflexivity|]. cbn [Z.eqb Pos.eqb]. rewrite TRY. auto.
  - exists 5, 5. rewrite L at 1. split; [reflexivity|]. cbn [Z.eqb Pos.eqb]. rewrite TRY. auto.
  - assert (D : digest_type_of_len (zlen dg) = Some 3) by (rewrite L; reflexivity).
    exists 3. rewrite D. cbn [Z.eqb Pos.eqb]. rewrite TRY.
    destruct (same_digest dg (in_tbuf (digest_b64 (h_sha256 H) data)) (zlen dg)); eexists; (split; [reflexivity|split; [reflexivity|lia]]).
  - assert (D : digest_type_of_len (zlen dg) = Some 5) by (rewrite L; reflexivity).
    exists 5. rewrite D. cbn [Z.eqb Pos.eqb]. rewrite TRY.
    destruct (same_digest dg (in_tbuf (digest_b64 (h_sha512 H) data)) (zlen dg)); eexists; (split; [reflexivity|split; [reflexivity|lia]]).
Qed.

(** Overwriting the digest with zeroes, lib/fko_decode.c:589-591. *)
Lemma chop_digest body dg : no_nul body -> dg <> [] ->
  let buf := body ++ colon :: dg in
  let buf' := ztake (zlen body) buf ++ repeat x00 (Z.to_nat (zlen dg)) ++ zdrop (zlen body + zlen dg) buf in
  ztake (zlen buf - (zlen dg + 1)) buf' = body /\ cstr buf' = body.
Proof.
  intros N NE buf buf'.
  assert (L : zlen buf - (zlen dg + 1) = zlen body) by (unfold buf; rewrite zlen_app, zlen_cons; lia).
  assert (E : exists t, buf' = body ++ x00 :: t).
  { unfold buf', buf. rewrite ztake_app by reflexivity.
    destruct dg as [|c dg]; [congruence|]. rewrite zlen_cons.
    replace (Z.to_nat (1 + zlen dg)) with (S (Z.to_nat (zlen dg))) by (pose proof (zlen_nonneg dg); lia).
    cbn [repeat app]. eauto. }
  destruct E as [t ->]. rewrite L. split; [apply ztake_app; reflexivity|apply cstr_app_nul; auto].
Qed.

Lemma printable_no_nul s : Forall printable s -> no_nul s.
Proof. rewrite Forall_forall. intros F I. apply F in I. unfold printable in I. change (bv x00) with 0 in I. lia. Qed.
Lemma isprint_printable s : forallb isprint s = true <-> Forall printable s.
Proof.
  rewrite forallb_forall, Forall_forall. split; intros H x I; specialize (H x I); unfold isprint, printable in *; lia.
Qed.

Lemma decode_plain H t h body m : hashes_ok H -> hash_number H t h ->
  Forall printable body -> 5 <= colons body <= 10 -> 36 <= zlen body <= 1400 -> parse_fields body = Some m ->
  exists t', decode_spa H (body ++ colon :: digest_b64 h body) = Some (m, t', digest_b64 h body) /\
    (t <= 5 -> t' = t).
Proof.
  intros OK HN PR C L PF. destruct (verify_digest_complete H t h body OK HN) as (t0 & t' & D0 & V & T').
  pose proof (digest_type_of_len_inv _ _ D0) as (R & _ & B).
  assert (PD : Forall printable (digest_b64 h body)) by apply enc64_printable.
  assert (ND : ~ In colon (digest_b64 h body)) by apply enc64_no_colon.
  set (dg := digest_b64 h body) in *. clearbody dg.
  assert (PA : Forall printable (body ++ colon :: dg)).
  { apply Forall_app. split; auto. constructor; auto. vm_compute. split; congruence. }
  assert (LB : zlen (body ++ colon :: dg) = zlen body + 1 + zlen dg) by (rewrite zlen_app, zlen_cons; lia).
  exists t'. split; [|auto]. unfold decode_spa, is_valid_encoded_msg_len, MIN_SPA_ENCODED_MSG_SIZE, MAX_SPA_ENCODED_MSG_SIZE.
  rewrite LB. replace (negb ((zlen body + 1 + zlen dg <? 36) || (zlen body + 1 + zlen dg >=? 1500))) with true by lia.
  cbn [guard obind]. rewrite cstr_id by (apply printable_no_nul; auto). cbv zeta.
  rewrite (proj2 (isprint_printable _)) by auto. cbn [guard obind].
  rewrite num_fields_spec, colons_app, colons_colon, (colons_none dg) by auto.
  replace (negb (Z.min (colons body + (1 + 0)) 11 <? 6)) with true by lia. cbn [guard obind].
  rewrite last_field_spec by (auto; lia).
  replace (zdrop (zlen body + 1) (body ++ colon :: dg)) with dg.
  2:{ replace (body ++ colon :: dg) with ((body ++ [colon]) ++ dg) by (rewrite <- app_assoc; reflexivity).
      rewrite zdrop_app; auto. rewrite zlen_app. reflexivity. }
  unfold strnlen. rewrite Z.min_l by lia. rewrite D0. cbn [obind].
  replace (negb (zlen body + 1 + zlen dg - zlen dg <? 0)) with true by lia. cbn [guard obind].
  replace (zlen body + 1 - 1) with (zlen body) by lia.
  destruct (chop_digest body dg) as [E1 E2].
  { apply printable_no_nul; auto. }
  { intros ->. change (zlen (@nil byte)) with 0 in B. lia. }
  rewrite <- LB. rewrite E1, E2, V. cbn [obind]. rewrite PF. reflexivity.
Qed.

Lemma ipv4_text_min s a b c d : ipv4_text s a b c d -> 7 <= zlen s.
Proof.
  intros (A & B & C & D & -> & (NA & _) & (NB & _) & (NC & _) & (ND & _) & _).
  destruct A, B, C, D; try congruence. rewrite !zlen_app, !zlen_cons.
  repeat match goal with |- context [zlen ?l] => lazymatch l with @nil _ => change (zlen l) with 0 | _ => fail end end.
  pose proof (zlen_nonneg A). pose proof (zlen_nonneg B). pose proof (zlen_nonneg C). pose proof (zlen_nonneg D). lia.
Qed.
Lemma request_min ty msg : (if ty =? 0 then command_request msg else access_request msg) -> 9 <= zlen msg.
Proof.
  destruct (ty =? 0).
  - intros (ip & cmd & a & b & c & d & -> & I & _ & NE). apply ipv4_text_min in I. rewrite !zlen_app.
    destruct cmd as [|c0 cmd]; [congruence|]. change (zlen [","%byte]) with 1. rewrite zlen_cons. pose proof (zlen_nonneg cmd). lia.
  - intros (ip & items & a & b & c & d & -> & NE & I & _ & F). apply ipv4_text_min in I.
    destruct items as [|it items]; [congruence|].
    assert (P : 1 <= zlen it).
    { apply Forall_inv in F. destruct F as (p & ds & P & -> & _). rewrite zlen_app.
      destruct P as [-> | ->]; [change (zlen ($ "tcp")) with 3|change (zlen ($ "udp")) with 3];
      pose proof (zlen_nonneg (["/"%byte] ++ ds)); lia. }
    assert (J : 1 <= zlen (join [","%byte] (it :: items))).
    { destruct items as [|i2 is]; [exact P|]. change (1 <= zlen (it ++ [","%byte] ++ join [","%byte] (i2 :: is))).
      rewrite zlen_app. pose proof (zlen_nonneg ([","%byte] ++ join [","%byte] (i2 :: is))). lia. }
    change (9 <= zlen (ip ++ [","%byte] ++ join [","%byte] (it :: items))).
    rewrite !zlen_app. change (zlen [","%byte]) with 1. lia.
Qed.

Lemma enc_body_facts m : sendable m ->
  Forall printable (enc_body m) /\ 5 <= colons (enc_body m) <= 10 /\ 36 <= zlen (enc_body m).
Proof.
  intro SD. pose proof SD as SD0.
  destruct SD as [[R1 [R2 R3]] [U1 U2] T [V1 [V2 V3]] Y (M1 & M2 & M3) N A [O I]].
  assert (PC : forall l, Forall printable l -> Forall printable (colon :: l)).
  { intros. constructor; auto. vm_compute. split; congruence. }
  assert (PDec : forall n, 0 <= n < 10 ^ 20 -> Forall printable (dec n)) by (intros; apply all_digits_printable, dec_spec; auto).
  assert (PT : Forall printable (enc_tail m)).
  { unfold enc_tail. destruct (s_nat m), (s_auth m), (s_timeout m >? 0);
    repeat first [apply Forall_app; split | apply PC | apply enc64_printable | apply PDec; lia | apply Forall_nil]. }
  assert (CT := colons_tail m ltac:(lia)).
  assert (LT := dec_time_len (s_time m) ltac:(lia)).
  assert (LY := dec_small (s_type m) ltac:(lia)).
  assert (LU : 2 <= zlen (enc64 (s_user m))).
  { rewrite enc64_len. destruct U1 as [NE _]. destruct (s_user m); [congruence|]. rewrite zlen_cons. pose proof (zlen_nonneg l). lia. }
  assert (LM : 12 <= zlen (enc64 (s_msg m))).
  { rewrite enc64_len. apply request_min in M1. lia. }
  assert (D1 := dec_no_colon (s_time m) ltac:(lia)). assert (D2 := dec_no_colon (s_type m) ltac:(lia)).
  assert (P1 := PDec (s_time m) ltac:(lia)). assert (P2 := PDec (s_type m) ltac:(lia)).
  unfold enc_body. set (d1 := dec (s_time m)) in *. clearbody d1. set (d2 := dec (s_type m)) in *. clearbody d2.
  split; [|split].
  - repeat first [assumption | apply enc64_printable | apply PC | apply Forall_app; split].
  - repeat first [rewrite colons_app | rewrite colons_colon].
    rewrite !colons_none by (assumption || apply enc64_no_colon). rewrite CT.
    destruct (s_nat m), (s_auth m), (s_timeout m >? 0); lia.
  - repeat first [rewrite zlen_app | rewrite zlen_cons]. pose proof (zlen_nonneg (enc_tail m)). lia.
Qed.

Theorem codec_round_trip H t h m : hashes_ok H -> hash_number H t h -> sendable m ->
  exists p dg t', plaintext_of H t m = Some p /\ decode_spa H p = Some (m, t', dg) /\ (t <= 5 -> t' = t).
Proof.
  intros OK HN SD. destruct (encode_text_body m SD) as [E L]. destruct (enc_body_facts m SD) as (P & C & M).
  destruct (decode_plain H t h (enc_body m) m OK HN P C ltac:(lia) (parse_fields_body m SD)) as (t' & D & T').
  exists (enc_body m ++ colon :: digest_b64 h (enc_body m)), (digest_b64 h (enc_body m)), t'. split; [|auto].
  unfold plaintext_of, encode_spa. rewrite (proj2 (hash_of_number H t h) HN), E.
  destruct SD as [_ [U1 U2] _ [V1 _] Y (M1 & _) N _ _].
  rewrite (proj2 (validate_username_iff (s_user m) ltac:(lia))) by auto.
  apply request_min in M1.
  replace (zlen (s_version m) =? 0) with false by lia. replace (zlen (s_msg m) =? 0) with false by lia.
  cbn [negb andb guard obind].
  replace (negb (s_type m =? FKO_NAT_ACCESS_MSG) || match s_nat m with Some n => negb (zlen n =? 0) | None => false end) with true.
  2:{ unfold FKO_NAT_ACCESS_MSG, nat_type in *. destruct (s_nat m) as [n|].
      - destruct N as (_ & (ho & po & -> & _ & _ & PO & _) & _). rewrite !zlen_app.
        change (zlen [","%byte]) with 1. pose proof (zlen_nonneg ho). lia.
      - destruct (s_type m =? 2) eqn:X; [exfalso; apply N; lia|reflexivity]. }
  cbn [guard obind]. unfold is_valid_encoded_msg_len, MIN_SPA_ENCODED_MSG_SIZE, MAX_SPA_ENCODED_MSG_SIZE.
  replace (negb ((zlen (enc_body m) <? 36) || (zlen (enc_body m) >=? 1500))) with true by lia.
  reflexivity.
Qed.

(** ** What the decoder accepts *)
Lemma obind_inv {A B} (o : option A) (f : A -> option B) r : obind o f = Some r -> exists a, o = Some a /\ f a = Some r.
Proof. destruct o; [eauto|discriminate]. Qed.
Lemma guard_inv b u : guard b = Some u -> b = true.
Proof. destruct b; [auto|discriminate]. Qed.
Ltac inv_do H := let X := fresh "X" in apply obind_inv in H; destruct H as (? & X & H);
  first [apply guard_inv in X | idtac].

Lemma strtol_wrapper_inv s min max n v : integer_text s n -> strtol_wrapper s min max = (v, STRTOL_OK) ->
  v = i32 n /\ min <= v /\ (0 <= max -> v <= max).
Proof.
  intros H E. pose proof (strtol_wrapper_range _ _ _ _ E) as R. split; [|tauto]. revert E.
  unfold strtol_wrapper. rewrite (strtol_reads _ _ H).
  destruct (n >? LONG_MAX); [intro E; exfalso; revert E|destruct (n <? LONG_MIN); [intro E; exfalso; revert E|]].
  - destruct ((max >=? 0) && _), (i32 LONG_MAX <? min); discriminate.
  - destruct ((max >=? 0) && _), (i32 LONG_MIN <? min); discriminate.
  - intro E. inversion E. reflexivity.
Qed.
Lemma strtol_ok_inv e : strtol_ok e = true -> e = STRTOL_OK.
Proof. destruct e; auto; discriminate. Qed.

Lemma leading_bound s n : leading s n -> 0 <= n < 10 ^ zlen s.
Proof.
  intros (ds & rest & -> & D & _ & ->). apply decimal_bound in D. rewrite zlen_app.
  pose proof (zlen_nonneg rest). pose proof (zlen_nonneg ds).
  assert (10 ^ zlen ds <= 10 ^ (zlen ds + zlen rest)) by (apply Z.pow_le_mono_r; lia). lia.
Qed.
Lemma integer_text_bound s n : integer_text s n -> - 10 ^ zlen s < n < 10 ^ zlen s.
Proof.
  intros (sp & body & -> & _ & _ & C). rewrite zlen_app. pose proof (zlen_nonneg sp).
  assert (M : forall k, 0 <= k <= zlen sp + zlen body -> 10 ^ k <= 10 ^ (zlen sp + zlen body)) by (intros; apply Z.pow_le_mono_r; lia).
  destruct C as [(r & m & -> & L & ->)|[(r & -> & L)|(_ & _ & L)]]; apply leading_bound in L;
    rewrite ?zlen_cons in *.
  - specialize (M (zlen r)). pose proof (zlen_nonneg r). lia.
  - specialize (M (zlen r)). pose proof (zlen_nonneg r). lia.
  - specialize (M (zlen body)). pose proof (zlen_nonneg body). lia.
Qed.

Definition b64_of (f v : bytes) : Prop := exists raw, b64_decode f = Some raw /\ v = cstr raw.
Lemma b64_field_inv f v : b64_field f = Some v -> b64_of f v.
Proof. unfold b64_field, b64_of. destruct (b64_decode f) as [raw|]; [|discriminate]. intro E; inversion E. eauto. Qed.
Lemma i32_mod n : 0 <= i32 n -> i32 n = n mod 4294967296.
Proof. unfold i32. intro. Z.div_mod_to_equations. lia. Qed.

Lemma field_more s f r g r' : field s = (f, r) -> field r = (g, r') -> 1 <= zlen g -> s = f ++ colon :: r.
Proof.
  intros A B L. apply field_inv in A. destruct A as [_ [|[_ ->]]]; auto.
  cbn in B. inversion B; subst. change (zlen (@nil byte)) with 0 in L. lia.
Qed.
Definition no_colon (s : bytes) : Prop := ~ In colon s.
Lemma join_cons f fs : fs <> [] -> join [colon] (f :: fs) = f ++ colon :: join [colon] fs.
Proof. destruct fs; [congruence|reflexivity]. Qed.

(** the rest [r] behind the message field holds the fields [fs] *)
Definition rest_is (s f r : bytes) (fs : list bytes) : Prop :=
  (s = f /\ r = [] /\ fs = []) \/ (s = f ++ colon :: r /\ fs <> [] /\ r = join [colon] fs).

Lemma parse_end_sound ty s au r ct : parse_server_auth ty s = Some (au, r) -> parse_client_timeout ty r = Some ct ->
  (is_timeout_type ty = true \/ no_colon s) ->
  exists fa fo, 
    (s = [] /\ fa = None /\ fo = None \/ s = join [colon] (opt_list fa ++ opt_list fo) /\ s <> []) /\
    match fa, au with Some f, Some v => b64_of f v | None, None => True | _, _ => False end /\
    match fo with Some f => timed_type ty /\ all_digits f /\ decimal f mod 4294967296 = ct | None => ct = 0 end /\
    0 <= ct <= 65536 /\ (is_timeout_type ty = true <-> fo <> None) /\
    (opt_list fa ++ opt_list fo <> [] \/ s = []) /\ Forall no_colon (opt_list fa ++ opt_list fo).
Proof.
  intros A C NC. unfold parse_server_auth in A. unfold parse_client_timeout in C.
  assert (TO : is_timeout_type ty = true -> 1 <= zlen r /\ all_digits r /\ decimal r mod 4294967296 = ct /\ 0 <= ct <= 65536 /\ timed_type ty).
  { intro T. rewrite T in C. inv_do C. inv_do C. destruct (strtol_wrapper r 0 65536) as [v e] eqn:S.
    inv_do C. apply strtol_ok_inv in X1. subst e. inversion C; subst ct.
    assert (AD : all_digits r).
    { apply Forall_forall. rewrite forallb_forall in X0. intros c I. apply isdigit_digit. auto. }
    assert (IT : integer_text r (decimal r)).
    { exists [], r. split; [auto|]. split; [constructor|]. destruct r as [|c r]; [change (zlen (@nil byte)) with 0 in X; discriminate|].
      pose proof (Forall_inv AD) as D. unfold digit in D. cbn [hd]. unfold blank. split; [lia|].
      right; right. split; [intros ->; change (bv "-"%byte) with 45 in D; lia|].
      split; [intros ->; change (bv "+"%byte) with 43 in D; lia|]. exists (c :: r), [].
      rewrite app_nil_r. auto. }
    destruct (strtol_wrapper_inv _ _ _ _ _ IT S) as (E & L1 & L2). specialize (L2 ltac:(lia)).
    rewrite u32_small by lia. rewrite <- i32_mod by (rewrite <- E; lia). rewrite <- E.
    split; [lia|]. split; [auto|]. split; [auto|]. split; [lia|]. apply is_timeout_type_iff; auto. }
  destruct (zlen s =? 0) eqn:Z0.
  { inversion A; subst au r. assert (s = []) by (destruct s; [auto|rewrite zlen_cons in Z0; pose proof (zlen_nonneg s); lia]). subst s.
    exists None, None. split; [left; auto|]. split; [auto|]. destruct (is_timeout_type ty) eqn:T.
    { destruct (TO eq_refl) as [X _]. change (zlen (@nil byte)) with 0 in X. lia. }
    inversion C; subst. split; [auto|]. split; [lia|]. split; [split; [discriminate|congruence]|]. split; [auto|constructor]. }
  assert (SN : s <> []) by (intros ->; discriminate Z0).
  destruct (zlen s >? MAX_SPA_MESSAGE_SIZE) eqn:Z1; [discriminate|].
  destruct (is_timeout_type ty) eqn:T.
  - destruct (TO eq_refl) as (L & AD & DE & CT & TT).
    destruct (strchr colon s) as [q|] eqn:Q.
    + destruct (field s) as [f r'] eqn:F. inv_do A. inversion A; subst. clear A.
      apply field_inv in F. destruct F as [NF [E|[E1 E2]]].
      * exists (Some f), (Some r). split; [right; split; auto|]. split; [apply b64_field_inv; auto|].
        split; [auto|]. split; [auto|]. split; [split; auto; discriminate|]. split; [left; discriminate|].
        constructor; [exact NF|constructor; [apply all_digits_no_colon; auto|constructor]].
      * subst r. change (zlen (@nil byte)) with 0 in L. lia.
    + inversion A; subst. exists None, (Some r). split; [right; auto|]. split; [auto|]. split; [auto|].
      split; [auto|]. split; [split; auto; discriminate|]. split; [left; discriminate|].
      constructor; [apply all_digits_no_colon; auto|constructor].
  - destruct NC as [NC|NC]; [discriminate|]. inv_do A. inversion A; subst. inversion C; subst.
    exists (Some r), None. split; [right; auto|]. split; [apply b64_field_inv; auto|].
    split; [auto|]. split; [lia|]. split; [split; [discriminate|congruence]|]. split; [left; discriminate|]. constructor; [exact NC|constructor].
Qed.

Lemma b64_of_no_nul f v : b64_of f v -> no_nul v.
Proof. intros (raw & _ & ->). apply cstr_no_nul. Qed.
Lemma b64_of_len f v : b64_of f v -> 4 * zlen v <= 3 * zlen f.
Proof.
  intros (raw & D & ->). destruct (b64_body_exists f) as [body HB].
  pose proof (proj2 (b64_decode_accepts f body HB) raw D). pose proof (b64_body_len _ _ HB).
  pose proof (cstr_len raw). lia.
Qed.

Lemma parse_fields_sound s m : Forall printable s -> parse_fields s = Some m ->
  received m /\ exists fs, s = join [colon] fs /\ Forall no_colon fs /\ written b64_of fs m.
Proof.
  intros PR P. unfold parse_fields in P.
  apply obind_inv in P. destruct P as ([rv s1] & P1 & P).
  apply obind_inv in P. destruct P as ([us s2] & P2 & P).
  apply obind_inv in P. destruct P as ([ts s3] & P3 & P).
  apply obind_inv in P. destruct P as ([ve s4] & P4 & P).
  apply obind_inv in P. destruct P as ([ty s5] & P5 & P).
  apply obind_inv in P. destruct P as ([ms s6] & P6 & P).
  apply obind_inv in P. destruct P as ([na s7] & P7 & P).
  apply obind_inv in P. destruct P as ([au s8] & P8 & P).
  apply obind_inv in P. destruct P as (ct & P9 & P). inversion P; subst m; clear P.
  unfold parse_rand_val in P1. destruct (field s) as [fr r1] eqn:F1. inv_do P1. inversion P1; subst rv r1; clear P1.
  unfold parse_username in P2. destruct (field s1) as [fu r2] eqn:F2. inv_do P2. inv_do P2. inv_do P2. inversion P2; subst us r2; clear P2.
  unfold parse_timestamp in P3. destruct (field s2) as [ft r3] eqn:F3. inv_do P3.
  destruct (strtol_wrapper ft 0 (-1)) as [tv te] eqn:S3. inv_do P3. inversion P3; subst ts r3; clear P3.
  unfold parse_version in P4. destruct (field s3) as [fv r4] eqn:F4. inv_do P4. inversion P4; subst ve r4; clear P4.
  unfold parse_msg_type in P5. destruct (field s4) as [fy r5] eqn:F5. inv_do P5.
  destruct (strtol_wrapper fy 0 (FKO_LAST_MSG_TYPE - 1)) as [yv ye] eqn:S5. inv_do P5. inv_do P5. inv_do P5. inversion P5; subst ty r5; clear P5.
  unfold parse_msg in P6. destruct (field s5) as [fm r6] eqn:F6. inv_do P6. inv_do P6. inv_do P6. inversion P6; subst ms r6; clear P6.
  rename X into Lr, X0 into Lu, X1 into Du, X2 into Vu, X3 into Lt, X4 into Ot, X5 into Lv, X6 into Ly, X7 into Oy, X8 into Ky, X9 into Ny, X10 into Lm, X11 into Dm, X12 into Vm.
  unfold FKO_RAND_VAL_SIZE in *. unfold MAX_SPA_USERNAME_SIZE in *.
  unfold MAX_SPA_TIMESTAMP_SIZE in *. unfold MAX_SPA_VERSION_SIZE in *. unfold MAX_SPA_MESSAGE_TYPE_SIZE, MAX_SPA_MESSAGE_SIZE in *.
  apply strtol_ok_inv in Ot, Oy. subst te ye.
  apply b64_field_inv in Du, Dm.
  destruct (integer_text_exists ft) as (tn & It). destruct (integer_text_exists fy) as (yn & Iy).
  destruct (strtol_wrapper_inv _ _ _ _ _ It S3) as (Et & Bt & _).
  destruct (strtol_wrapper_inv _ _ _ _ _ Iy S5) as (Ey & By & By2). specialize (By2 ltac:(unfold FKO_LAST_MSG_TYPE; lia)).
  unfold FKO_LAST_MSG_TYPE in By2.
  assert (Yn : yv = yn).
  { pose proof (integer_text_bound _ _ Iy) as B. assert (10 ^ zlen fy <= 10 ^ 2) by (apply Z.pow_le_mono_r; lia).
    rewrite Ey. apply i32_small. lia. }
  clear Ey. subst yn.
  pose proof (strtol_wrapper_range _ _ _ _ S3) as (_ & _ & Rt).
  assert (E1 : s = fr ++ colon :: s1) by (eapply field_more; eauto; lia).
  assert (E2 : s1 = fu ++ colon :: s2) by (eapply field_more; eauto; lia).
  assert (E3 : s2 = ft ++ colon :: s3) by (eapply field_more; eauto; lia).
  assert (E4 : s3 = fv ++ colon :: s4) by (eapply field_more; eauto; lia).
  assert (E5 : s4 = fy ++ colon :: s5) by (eapply field_more; eauto; lia).
  apply field_inv in F1, F2, F3, F4, F5, F6.
  destruct F1 as [C1 _], F2 as [C2 _], F3 as [C3 _], F4 as [C4 _], F5 as [C5 _], F6 as [C6 E6].
  assert (REC : forall fn fa fo, s5 = join [colon] (fm :: opt_list fn ++ opt_list fa ++ opt_list fo) ->
     Forall no_colon (opt_list fn ++ opt_list fa ++ opt_list fo) ->
     match fn, na with Some f, Some v => b64_of f v | None, None => True | _, _ => False end ->
     match na with Some n => nat_type yv /\ nat_request n /\ no_nul n /\ zlen n <= 192 | None => ~ nat_type yv end ->
     match fa, au with Some f, Some v => b64_of f v | None, None => True | Some [], None => True | _, _ => False end ->
     match fo with Some f => timed_type yv /\ all_digits f /\ decimal f mod 4294967296 = ct | None => ct = 0 end ->
     0 <= ct <= 65536 ->
     received (mkSpa (ztake 16 fr) x1 (u32 tv) fv yv x11 na au ct) /\
     exists fs, s = join [colon] fs /\ Forall no_colon fs /\ written b64_of fs (mkSpa (ztake 16 fr) x1 (u32 tv) fv yv x11 na au ct)).
  { intros fn fa fo J NC JN RN JA JO BO.
    assert (PRr : Forall printable fr /\ Forall printable fv).
    { rewrite E1, E2, E3, E4 in PR. rewrite !Forall_app in PR. split; [tauto|].
      destruct PR as (_ & PR). apply Forall_inv_tail in PR. rewrite Forall_app in PR. destruct PR as (_ & PR).
      apply Forall_inv_tail in PR. rewrite Forall_app in PR. destruct PR as (_ & PR).
      apply Forall_inv_tail in PR. rewrite Forall_app in PR. tauto. }
    destruct PRr as [PRr PRv].
    split.
    - constructor; cbn [s_rand s_user s_time s_version s_type s_msg s_nat s_auth s_timeout].
      + split; [apply zlen_ztake; pose proof (zlen_nonneg fr); lia|]. rewrite <- (ztake_zdrop 16 fr) in PRr, C1.
        apply Forall_app in PRr. split; [tauto|]. intro I. apply C1, in_app_iff. auto.
      + pose proof (b64_of_len _ _ Du). split; [|lia]. apply validate_username_iff; auto. lia.
      + rewrite u32_small by lia. lia.
      + split; [lia|]. split; auto.
      + lia.
      + split; [|split; [exact (b64_of_no_nul _ _ Dm)|pose proof (b64_of_len _ _ Dm); lia]].
        destruct (yv =? FKO_COMMAND_MSG) eqn:T0; unfold FKO_COMMAND_MSG in T0; rewrite T0.
        * apply validate_cmd_msg_iff in Vm. tauto.
        * apply validate_access_msg_iff in Vm. tauto.
      + destruct na; auto.
      + split; [auto|]. intro. destruct fo; [tauto|lia].
    - exists ([fr; fu; ft; fv; fy; fm] ++ opt_list fn ++ opt_list fa ++ opt_list fo).
      split; [|split].
      + rewrite E1, E2, E3, E4, E5, J. cbn [app]. rewrite !(join_cons _ (_ :: _)) by discriminate. reflexivity.
      + cbn [app]. repeat (constructor; [assumption|]). assumption.
      + constructor. exists fr, fu, ft, fv, fy, fm, fn, fa, fo.
        cbn [s_rand s_user s_time s_version s_type s_msg s_nat s_auth s_timeout].
        split; [auto|]. split; [exists (zdrop 16 fr); symmetry; apply ztake_zdrop|].
        split; [auto|]. split; [exists tn; split; [auto|]; rewrite u32_small by lia; rewrite Et; apply i32_mod; lia|].
        split; [auto|]. split; [auto|]. split; [auto|]. split; [auto|]. split; [auto|]. auto. }
  (* the colons behind the type *)
  unfold max_remaining, FKO_COMMAND_MSG, FKO_ACCESS_MSG, FKO_NAT_ACCESS_MSG, FKO_LOCAL_NAT_ACCESS_MSG,
    FKO_CLIENT_TIMEOUT_ACCESS_MSG, FKO_CLIENT_TIMEOUT_NAT_ACCESS_MSG, FKO_CLIENT_TIMEOUT_LOCAL_NAT_ACCESS_MSG in Ky.
  rewrite E5, num_fields_spec, colons_app, colons_colon, (colons_none fy) in Ny by auto.
  assert (NAT : is_nat_type yv = true <-> nat_type yv) by apply is_nat_type_iff.
  assert (TT : is_timeout_type yv = true <-> timed_type yv) by apply is_timeout_type_iff.
  unfold parse_nat_msg in P7.
  destruct (is_nat_type yv) eqn:ISN.
  - destruct (field s6) as [fn r7] eqn:F7. inv_do P7. inv_do P7. inv_do P7. inversion P7; subst na r7; clear P7.
    rename X into Ln, X0 into Dn, X1 into Vn. apply b64_field_inv in Dn.
    destruct E6 as [E6|[E6 E6']].
    2:{ subst s6. cbn in F7. inversion F7; subst. discriminate Ln. }
    apply field_inv in F7. destruct F7 as [C7 E7].
    assert (NC : is_timeout_type yv = true \/ no_colon s7).
    { destruct (is_timeout_type yv) eqn:IST; [auto|]. right.
      assert (K : yv = 2 \/ yv = 5).
      { unfold nat_type, timed_type in *. assert (nat_type yv) by (apply NAT; auto). unfold nat_type in *.
        destruct (Z.eq_dec yv 4) as [->|]; [assert (false = true) by (apply TT; lia); discriminate|].
        destruct (Z.eq_dec yv 6) as [->|]; [assert (false = true) by (apply TT; lia); discriminate|]. lia. }
      assert (Kx : x8 = 3) by (destruct K as [-> | ->]; inversion Ky; auto).
      destruct E7 as [E7|[E7 ->]]; [|intros []].
      rewrite E6, E7, colons_app, colons_colon, colons_app, colons_colon, (colons_none fm), (colons_none fn) in Ny by auto.
      intro I. assert (1 <= colons s7); [|lia]. apply in_split in I. destruct I as (p & t & ->).
      rewrite colons_app, colons_colon. pose proof (colons_nonneg p). pose proof (colons_nonneg t). lia. }
    destruct (parse_end_sound _ _ _ _ _ P8 P9 NC) as (fa & fo & J & JA & JO & BO & FO & NEs & NCs).
    apply validate_nat_access_msg_iff in Vn. destruct Vn as [_ Vn].
    destruct J as [(-> & -> & ->)|[J NE]].
    + destruct E7 as [E7|[E7 _]].
      * (* trailing colon *) subst au || idtac. destruct au; [contradiction|].
        apply (REC (Some fn) (Some []) None); auto.
        -- rewrite E6, E7. reflexivity.
        -- repeat constructor; auto. intros [].
        -- split; [apply NAT; auto|]. split; [auto|]. split; [exact (b64_of_no_nul _ _ Dn)|pose proof (b64_of_len _ _ Dn); unfold MAX_SPA_MESSAGE_SIZE in *; lia].
      * destruct au; [contradiction|]. apply (REC (Some fn) None None); auto.
        -- rewrite E6, E7. reflexivity.
        -- repeat constructor; auto.
        -- split; [apply NAT; auto|]. split; [auto|]. split; [exact (b64_of_no_nul _ _ Dn)|pose proof (b64_of_len _ _ Dn); unfold MAX_SPA_MESSAGE_SIZE in *; lia].
    + destruct E7 as [E7|[_ E7]]; [|congruence].
      apply (REC (Some fn) fa fo); auto.
      * rewrite E6, E7, J. cbn [opt_list app]. rewrite !join_cons; [reflexivity| |discriminate].
        destruct NEs; auto.
      * constructor; auto.
      * split; [apply NAT; auto|]. split; [auto|]. split; [exact (b64_of_no_nul _ _ Dn)|pose proof (b64_of_len _ _ Dn); unfold MAX_SPA_MESSAGE_SIZE in *; lia].
      * destruct fa as [[|? ?]|], au; auto; contradiction.
  - inversion P7; subst na s7; clear P7.
    assert (NC : is_timeout_type yv = true \/ no_colon s6).
    { destruct (is_timeout_type yv) eqn:IST; [auto|]. right.
      assert (K : yv = 0 \/ yv = 1).
      { unfold nat_type, timed_type in *.
        assert (~ (yv = 2 \/ yv = 4 \/ yv = 5 \/ yv = 6)) by (intro Q; apply NAT in Q; discriminate).
        assert (~ (yv = 3 \/ yv = 4 \/ yv = 6)) by (intro Q; apply TT in Q; discriminate). lia. }
      assert (Kx : x8 = 2) by (destruct K as [-> | ->]; inversion Ky; auto).
      destruct E6 as [E6|[E6 ->]]; [|intros []].
      rewrite E6, colons_app, colons_colon, (colons_none fm) in Ny by auto.
      intro I. assert (1 <= colons s6); [|lia]. apply in_split in I. destruct I as (p & t & ->).
      rewrite colons_app, colons_colon. pose proof (colons_nonneg p). pose proof (colons_nonneg t). lia. }
    destruct (parse_end_sound _ _ _ _ _ P8 P9 NC) as (fa & fo & J & JA & JO & BO & FO & NEs & NCs).
    assert (NN : ~ nat_type yv) by (intro Q; apply NAT in Q; discriminate).
    destruct J as [(-> & -> & ->)|[J NE]].
    + destruct au; [contradiction|]. destruct E6 as [E6|[E6 _]].
      * apply (REC None (Some []) None); auto. repeat constructor; auto. intros [].
      * apply (REC None None None); auto.
    + destruct E6 as [E6|[_ E6]]; [|congruence].
      apply (REC None fa fo); auto.
      * rewrite E6, J. cbn [opt_list app]. rewrite join_cons; [reflexivity|]. destruct NEs; auto.
      * destruct fa as [[|? ?]|], au; auto; contradiction.
Qed.

Lemma last_field_cut f : forall s, 1 <= colons s -> (0 < f)%nat ->
  exists body, s = body ++ colon :: zdrop (last_field_go f s) s /\ last_field_go f s = zlen body + 1.
Proof.
  induction f as [|f IH]; intros s C F; [lia|]. cbn [last_field_go].
  pose proof (strchr_split colon s) as S. destruct (strchr colon s) as [r|].
  2:{ rewrite colons_none in C by auto. lia. }
  destruct S as (p & t & -> & -> & N). cbn [tl].
  assert (LP : zlen (p ++ colon :: t) - zlen (colon :: t) = zlen p) by (rewrite zlen_app; lia). rewrite LP.
  assert (ZD : forall k, 0 <= k -> zdrop (zlen p + 1 + k) (p ++ colon :: t) = zdrop k t).
  { intros k K. replace (p ++ colon :: t) with ((p ++ [colon]) ++ t) by (rewrite <- app_assoc; reflexivity).
    unfold zdrop. rewrite skipn_app.
    assert (LL : length (p ++ [colon]) = Z.to_nat (zlen p + 1)) by (unfold zlen; rewrite app_length; cbn [length]; lia).
    rewrite LL. pose proof (zlen_nonneg p).
    rewrite skipn_all2 by lia. cbn [app]. f_equal. lia. }
  destruct (Z_le_gt_dec 1 (colons t)) as [CT|CT].
  - destruct f as [|f'].
    + cbn [last_field_go]. rewrite ZD by lia. rewrite zdrop_0. exists p. split; auto. lia.
    + destruct (IH t CT ltac:(lia)) as (body & E & L). exists (p ++ colon :: body).
      rewrite ZD by (rewrite L; pose proof (zlen_nonneg body); lia).
      split; [rewrite <- app_assoc; cbn [app]; rewrite <- E; auto|].
      rewrite L, zlen_app, zlen_cons. lia.
  - assert (NT : ~ In colon t).
    { intro I. apply in_split in I. destruct I as (a & b & ->). rewrite colons_app, colons_colon in CT.
      pose proof (colons_nonneg a). pose proof (colons_nonneg b). lia. }
    assert (L0 : last_field_go f t = 0) by (destruct f; cbn [last_field_go]; rewrite ?strchr_none; auto).
    rewrite L0. rewrite ZD by lia. rewrite zdrop_0. exists p. split; auto. lia.
Qed.

Theorem decode_spa_sound H buf m dt dg : hashes_ok H -> decode_spa H buf = Some (m, dt, dg) ->
  36 <= zlen buf < 1500 /\
  exists body extra h, cstr buf = body ++ colon :: dg /\ no_colon dg /\
    hash_number H dt h /\ dg = digest_b64 h (body ++ extra) /\ zlen extra = zlen buf - zlen (cstr buf) /\
    received m /\
    exists fs, body = join [colon] fs /\ Forall no_colon fs /\ written b64_of fs m.
Proof.
  intros OK D. unfold decode_spa in D. inv_do D. inv_do D. inv_do D. inv_do D. inv_do D. inv_do D. inv_do D.
  rename X into LB, X0 into PR, X1 into NF, X2 into DT, X3 into LE, X4 into VD, X5 into PF.
  inversion D; subst; clear D.
  unfold is_valid_encoded_msg_len, MIN_SPA_ENCODED_MSG_SIZE, MAX_SPA_ENCODED_MSG_SIZE in LB.
  split; [lia|]. rewrite num_fields_spec in NF. apply isprint_printable in PR.
  set (s := cstr buf) in *.
  destruct (last_field_cut 11 s ltac:(lia) ltac:(lia)) as (body & ES & LF). fold (last_field s) in ES, LF.
  set (dg := zdrop (last_field s) s) in *.
  pose proof (digest_type_of_len_inv _ _ DT) as (_ & _ & TB).
  assert (TS : strnlen dg 87 = zlen dg) by (unfold strnlen in *; lia). rewrite TS in *.
  rewrite LF in *. replace (zlen body + 1 - 1) with (zlen body) in * by lia.
  destruct (verify_digest_sound H _ _ _ _ OK DT VD) as (h & HN & DG).
  destruct (cstr_prefix buf) as (t & EB & ET). fold s in EB.
  assert (B1 : ztake (zlen body) buf = body).
  { rewrite EB, ES, <- app_assoc. apply ztake_app. reflexivity. }
  set (rest := repeat x00 (Z.to_nat (zlen dg)) ++ zdrop (zlen body + zlen dg) buf) in *.
  rewrite B1 in *.
  assert (NB : no_nul body).
  { assert (N : no_nul s) by apply cstr_no_nul. rewrite ES in N. apply no_nul_app in N. tauto. }
  assert (CB : cstr (body ++ rest) = body).
  { unfold rest. replace (Z.to_nat (zlen dg)) with (S (Z.to_nat (zlen dg - 1))) by lia. cbn [repeat app].
    apply cstr_app_nul; auto. }
  rewrite CB in PF.
  assert (PB : Forall printable body) by (rewrite ES in PR; apply Forall_app in PR; tauto).
  destruct (parse_fields_sound body m PB PF) as (RC & FS).
  assert (LS : zlen s = zlen body + 1 + zlen dg) by (rewrite ES, zlen_app, zlen_cons; lia).
  assert (LBt : zlen buf = zlen s + zlen t) by (rewrite EB at 1; apply zlen_app).
  assert (DA : ztake (zlen buf - (zlen dg + 1)) (body ++ rest) = body ++ ztake (zlen t) rest).
  { replace (zlen buf - (zlen dg + 1)) with (zlen body + zlen t) by lia.
    unfold ztake. rewrite firstn_app. unfold zlen. f_equal.
    - apply firstn_all2. lia.
    - f_equal. lia. }
  rewrite DA in DG.
  exists body, (ztake (zlen t) rest), h.
  split; [auto|]. split; [rewrite DG; apply enc64_no_colon|]. split; [auto|]. split; [auto|].
  split; [|auto].
  rewrite zlen_ztake; [lia|]. split; [apply zlen_nonneg|]. unfold rest.
  rewrite zlen_app, zlen_repeat. pose proof (zlen_nonneg body).
  assert (zlen (zdrop (zlen body + zlen dg) buf) = zlen buf - (zlen body + zlen dg)).
  { unfold zdrop, zlen. rewrite skipn_length. unfold zlen in *. lia. }
  lia.
Qed.

Lemma strip_filter l : strip_b64_eq (rfc4648 l) = filter (fun c => negb (beq c "="%byte)) (rfc4648 l).
Proof.
  assert (NE : forall n, 0 <= n < 64 -> beq (sextet_char n) "="%byte = false).
  { intros k Hk. apply beq_neq. apply sextet_not_special; auto. }
  remember (length l) as n eqn:E. revert l E.
  induction n as [n IH] using lt_wf_ind; intros l E.
  destruct l as [|a [|b [|c r]]]; [reflexivity| | |].
  - pose proof (bv_range a). cbn [rfc4648 strip_b64_eq filter]. rewrite !NE by lia. reflexivity.
  - pose proof (bv_range a). pose proof (bv_range b). cbn [rfc4648 strip_b64_eq filter]. rewrite !NE by lia. reflexivity.
  - pose proof (bv_range a). pose proof (bv_range b). pose proof (bv_range c).
    cbn [rfc4648 strip_b64_eq filter]. rewrite !NE by lia. cbn [negb].
    rewrite (IH (length r)) by (auto; subst; cbn; lia). reflexivity.
Qed.
Lemma digest_b64_text h d : digest_b64 h d = b64_text (h d).
Proof. unfold digest_b64, b64_text. rewrite b64_encode_rfc. apply strip_filter. Qed.

Theorem decode_spa_sound' H buf m dt dg : hashes_ok H -> decode_spa H buf = Some (m, dt, dg) ->
  36 <= zlen buf < 1500 /\
  exists body extra h, cstr buf = body ++ colon :: dg /\ ~ In colon dg /\
    hash_number H dt h /\ dg = b64_text (h (body ++ extra)) /\ zlen extra = zlen buf - zlen (cstr buf) /\
    received m /\
    exists fs, body = join [colon] fs /\ Forall (fun f => ~ In colon f) fs /\
      written (fun f v => exists raw, b64_decode f = Some raw /\ v = cstr raw) fs m.
Proof.
  intros OK D. destruct (decode_spa_sound H buf m dt dg OK D) as (L & body & extra & h & A & B & C & E & F).
  rewrite digest_b64_text in E. split; [auto|]. exists body, extra, h. auto.
Qed.

Theorem codec_round_trip' H t h m : hashes_ok H -> hash_number H t h -> sendable m ->
  exists text t' h',
    encode_spa m = Some text /\ plaintext_of H t m = Some (text ++ colon :: b64_text (h text)) /\
    decode_spa H (text ++ colon :: b64_text (h text)) = Some (m, t', b64_text (h text)) /\
    hash_number H t' h' /\ b64_text (h' text) = b64_text (h text) /\ (t <= 5 -> t' = t).
Proof.
  intros OK HN SD. pose proof (codec_round_trip H t h m OK HN SD) as (p & dg & t' & P & D & T).
  destruct (enc_body_facts m SD) as (PR & C & M). destruct (encode_text_body m SD) as [ET _].
  unfold plaintext_of in P. destruct (encode_spa m) as [text|] eqn:ES; [|discriminate].
  assert (text = enc_body m).
  { unfold encode_spa in ES. rewrite ET in ES. cbn [obind] in ES. inv_do ES. inv_do ES. inv_do ES. congruence. }
  subst text. cbn [obind] in P.
  rewrite (proj2 (hash_of_number H t h) HN) in P. cbn [obind] in P. 
  inversion P; subst p; clear P.
  assert (PA : Forall printable (enc_body m ++ colon :: digest_b64 h (enc_body m))).
  { apply Forall_app. split; auto. constructor; [vm_compute; split; congruence|]. apply enc64_printable. }
  destruct (decode_spa_sound' H _ m t' dg OK D) as (_ & body & extra & h' & A & B & CC & E & F & _).
  rewrite cstr_id in A, F by (apply printable_no_nul; auto).
  replace (zlen (enc_body m ++ colon :: digest_b64 h (enc_body m)) - _) with 0 in F by lia.
  assert (extra = []) by (destruct extra; [auto|rewrite zlen_cons in F; pose proof (zlen_nonneg extra); lia]). subst extra.
  rewrite app_nil_r in E.
  assert (X : enc_body m = body /\ digest_b64 h (enc_body m) = dg).
  { apply (f_equal (@rev byte)) in A. rewrite !rev_app_distr in A. cbn [rev] in A. rewrite <- !app_assoc in A. cbn [app] in A.
    apply split_at in A.
    - destruct A as [A1 A2]. apply (f_equal (@rev byte)) in A1, A2. rewrite !rev_involutive in *. auto.
    - rewrite <- in_rev. apply enc64_no_colon.
    - rewrite <- in_rev. exact B. }
  destruct X as [<- X2].
  exists (enc_body m), t', h'. rewrite <- (digest_b64_text h). unfold plaintext_of. rewrite ES. cbn [obind].
  rewrite (proj2 (hash_of_number H t h) HN). cbn [obind]. rewrite X2 in *.
  split; [auto|]. split; [auto|]. split; [auto|]. split; [auto|]. split; [auto|]. auto.
Qed.
