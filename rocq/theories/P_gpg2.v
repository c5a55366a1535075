(** Proofs about M_gpg: what an encryption and a decryption do, what becomes of the handle. *)
From Verif Require Import Bytes M_base64 M_util M_message M_codec M_cipher M_ctx P_bytes M_gpg S_gpg P_gpg.
From Coq Require Import Init.Byte List ZArith Bool Lia.
Import ListNotations.
Open Scope Z_scope.

Ltac into E := match type of E with
  | context [match ?b with _ => _ end] => let Q := fresh "Q" in destruct b eqn:Q; try discriminate E
  end.

Section gpg2.
Variable H : hashes.

Lemma timeout_etype t c e c' : set_client_timeout t c = (e, c') -> c_etype c' = c_etype c.
Proof. unfold set_client_timeout. destruct (_ <? _); intros E; injection E as _ <-; destruct c; reflexivity. Qed.
Lemma encode_etype c e c' : encode_spa_data H c = Ok (e, c') -> c_etype c' = c_etype c.
Proof.
  unfold encode_spa_data. intros R. repeat (into R); try (injection R as _ <-; reflexivity).
  all: destruct (set_client_timeout (c_timeout c) c) as [e1 c1] eqn:T; pose proof (timeout_etype _ _ _ _ T) as U; cbn [snd] in *.
  all: match goal with Q : set_spa_digest H ?x = _ |- _ => unfold set_spa_digest in Q; repeat (into Q); injection Q as _ <- | _ => idtac end.
  all: injection R as _ <-; rewrite <- U; try (destruct c1; reflexivity).
Qed.

(** An encryption that succeeds. *)
Lemma encrypt_spec p x w pw salt y : inv p x -> c_etype (x_c x) = FKO_ENCRYPTION_GPG ->
  encrypt_data H w pw salt x = Done (success, y) ->
  exists e wr n k enc d out,
    once p e /\ recipient p = Some (wr, n) /\ found wr e n false k /\
    c_enc (x_c y) = Some enc /\ c_digest (x_c y) = Some d /\ c_crypt (x_c y) = Some (strip_b64_eq (b64_encode out)) /\
    match signer p with
    | None => w_encrypt w e (Some k) (cstr enc ++ ":"%byte :: d) = inr out
    | Some (ws, m) => exists ks, found ws e m true ks /\
        w_sign w e (Some k) (Some ks) (match pw with Some q => q | None => [] end) (cstr enc ++ ":"%byte :: d) = inr out
    end.
Proof.
  intros IV ET. unfold encrypt_data. cbv zeta.
  destruct (if _ : bool then _ else _) as [[e0 c1]|] eqn:EN; [|discriminate]. intros R.
  assert (ET1 : c_etype c1 = FKO_ENCRYPTION_GPG).
  { destruct (match c_enc (x_c x) with Some _ => c_dirty (x_c x) | None => true end); [rewrite (encode_etype _ _ _ EN); exact ET|injection EN as _ <-; exact ET]. }
  rewrite ET1 in R. destruct (ok e0) eqn:OK0; cbn [negb] in R; [|unfold success in R; injection R as -> _; discriminate OK0].
  destruct (is_valid_encoded_msg_len (c_enc_len c1)) eqn:VL; cbn [negb] in R; [|discriminate R].
  change (FKO_ENCRYPTION_GPG =? FKO_ENCRYPTION_RIJNDAEL) with false in R. change (FKO_ENCRYPTION_GPG =? FKO_ENCRYPTION_GPG) with true in R. cbv iota in R.
  unfold gpg_encrypt in R. cbv zeta in R. cbn [x_c put_c x_rcpt] in R. rewrite VL in R. cbn [negb] in R.
  destruct (is_b64_digest_len (c_digest_len c1)); cbn [negb] in R; [|discriminate R].
  destruct (x_rcpt x) as [n|] eqn:RC; [|discriminate R]. destruct (c_enc c1) as [enc|] eqn:CE; [|discriminate R]. destruct (c_digest c1) as [d|] eqn:CD; [|discriminate R].
  destruct (_ >? _); [discriminate R|]. destruct (negb (is_valid_encoded_msg_len (zlen _))); [discriminate R|].
  destruct (gpgme_encrypt _ _ _ _) as [[[e2 o] z]|] eqn:G; [|discriminate R].
  destruct e2 as [[]|]; try discriminate R. destruct o as [out|]; [|].
  2: { exfalso. clear -G. unfold gpgme_encrypt in G. destruct (init_gpgme _ _) as [q z0]. destruct q as [[]|]; try discriminate G.
       destruct (negb (w_data w)); [now apply failed_none in G|]. destruct (x_ptr z0); [now apply failed_none in G| |discriminate G].
       destruct (negb (w_proto w)); [now apply failed_none in G|]. destruct (negb (w_data2 w)); [now apply failed_none in G|].
       match type of G with match ?b with _ => _ end = _ => destruct b as [[[]|]|] end; try (now apply failed_none in G); discriminate G. }
  apply gpgme_encrypt_ok in G. destruct G as (e & P & IN & W).
  destruct (init_live p x (put_c c1 x) w _ z IV eq_refl eq_refl eq_refl eq_refl IN) as [_ J]. destruct (J e P) as (O & S1 & S2).
  pose proof (after_init _ _ _ _ IN) as (A1 & A2 & A3 & A4 & A5 & A6 & A7 & A8 & _). cbn [x_rcpt x_sgn x_rkey x_skey put_c] in A3, A4, A5, A6.
  assert (XC : x_c z = c1).
  { pose proof (init_cases w (put_c c1 x)) as C. rewrite IN in C. destruct C as [(_ & _ & ->)|[(_ & _ & ->)|(_ & _ & ->)]]; reflexivity. }
  destruct IV as [I1 I2 I3 I4 I5 I6 I7]. rewrite RC in I2. destruct (recipient p) as [[wr n']|] eqn:RP; [|discriminate I2]. injection I2 as <-.
  destruct S1 as (k & RK & F). rewrite A4, I3, A5, A6, RK in W.
  match type of R with (if ?b then _ else _) = _ => destruct b; [discriminate R|] end. injection R as <-.
  exists e, wr, n, k, enc, d, out. cbn [x_c put_c]. rewrite XC. repeat split; auto.
  destruct (signer p) as [[ws m]|]; cbn [name_of] in W; [|exact W]. destruct S2 as (ks & SK & F2). exists ks. split; [exact F2|]. rewrite SK in W. exact W.
Qed.

(** A decryption that succeeds. *)
Lemma parse_etype t c e c' : parse_into t c = (e, c') -> c_etype c' = c_etype c.
Proof. unfold parse_into. cbv zeta. intros R. repeat (into R); injection R as _ <-; destruct c; reflexivity. Qed.
Lemma decode_etype c e c' : decode_spa_data H c = Ok (e, c') -> c_etype c' = c_etype c.
Proof.
  unfold decode_spa_data. cbv zeta. intros R. repeat (into R); try (injection R as _ <-; destruct c; reflexivity).
  injection R as R. apply parse_etype in R. rewrite R. destruct c; reflexivity.
Qed.
Lemma prefix_etype c e c' : add_gpg_prefix c = Ok (e, c') -> c_etype c' = c_etype c.
Proof. unfold add_gpg_prefix. intros R. repeat (into R); injection R as _ <-; destruct c; reflexivity. Qed.
Lemma failed_not g x e o y : match drop_with g x with Done (e0, x0) => Done (e0, @None bytes, x0) | Bad t => Bad t end = Done (e, o, y) -> e <> success.
Proof. unfold drop_with. destruct (drop x); [|discriminate]. intros E. injection E as <- _ _. discriminate. Qed.

Lemma gpgme_decrypt_ok w pw t x o y : gpgme_decrypt w pw t x = Done (success, o, y) ->
  exists e z pt sigs, init_gpgme w x = (success, z) /\ x_ptr z = GLive e /\ o = Some pt /\ x_c y = x_c x /\
    w_open w e (match pw with Some q => q | None => [] end) t = Some (pt, false, sigs) /\
    x_verify y = x_verify x /\
    (x_verify x = true -> exists s l, sigs = s :: l /\ x_sig y = Some s /\ (x_ignore x = false -> trusted s)).
Proof.
  unfold gpgme_decrypt. destruct (init_gpgme w x) as [e0 z] eqn:E. pose proof (after_init _ _ _ _ E) as (_ & _ & _ & _ & _ & _ & V & IG & _).
  assert (XC : x_c z = x_c x).
  { pose proof (init_cases w x) as C. rewrite E in C. destruct C as [(_ & _ & ->)|[(_ & _ & ->)|(_ & _ & ->)]]; reflexivity. }
  intros R. destruct e0 as [[]|]; try discriminate R.
  destruct (w_data w); cbn [negb] in R; [|now apply failed_not in R].
  destruct (w_data2 w); cbn [negb] in R; [|now apply failed_not in R].
  destruct (x_ptr z) as [|en|] eqn:P; [now apply failed_not in R| |discriminate R].
  destruct (_ && _); [discriminate R|]. destruct (w_open _ _ _ _) as [[[pt u] sigs]|] eqn:W; [|now apply failed_not in R].
  destruct u; [now apply failed_not in R|]. destruct (x_verify z) eqn:VZ.
  - destruct (process_sigs sigs z) as [e1 z1] eqn:PS.
    assert (Q : e1 = success /\ o = Some pt /\ y = z1).
    { destruct e1 as [[]|]; try (destruct (drop z1); discriminate R). injection R as <- <-. auto. }
    destruct Q as (-> & -> & ->). unfold process_sigs in PS. destruct sigs as [|s l]; [discriminate PS|]. cbv zeta in PS. cbn [x_ignore put_sig] in PS.
    exists en, z, pt, (s :: l).
    assert (Z1 : z1 = put_sig (Some s) z /\ (x_ignore z = false -> trusted s)).
    { destruct (x_ignore z); [injection PS as <-; split; [reflexivity|discriminate]|].
      destruct (sg_status s =? 0) eqn:S1; cbn [negb orb] in PS; [|discriminate PS]. destruct (sg_valid s <? 3) eqn:S2; [discriminate PS|]. injection PS as <-.
      split; [reflexivity|]. intros _. split; lia. }
    destruct Z1 as [-> T]. cbn [x_c x_verify x_sig put_sig]. repeat split; auto; try congruence.
    intros _. exists s, l. repeat split; auto; intros; apply T; congruence.
  - injection R as <- <-. exists en, z, pt, sigs. repeat split; auto; try congruence.
Qed.

Lemma decrypt_spec p x w pw len y : inv p x ->
  encryption_type (c_crypt (x_c x)) = FKO_ENCRYPTION_GPG -> c_mode (x_c x) = FKO_ENC_MODE_ASYMMETRIC ->
  decrypt_data H w pw len x = Done (success, y) ->
  exists e t cipher pt sigs c,
    once p e /\ c_crypt c = Some t /\ b64_decode t = Some cipher /\
    w_open w e (match pw with Some q => q | None => [] end) cipher = Some (pt, false, sigs) /\
    c_enc c = Some pt /\ decode_spa_data H c = Ok (FKO_SUCCESS, x_c y) /\
    (verifying p = true -> exists s l, sigs = s :: l /\ get_gpg_signature_fpr y = Done (success, sg_print s) /\ (ignoring p = false -> trusted s)).
Proof.
  intros IV ET M. unfold decrypt_data. cbv zeta. rewrite ET, M. change (FKO_ENCRYPTION_GPG =? FKO_ENCRYPTION_GPG) with true.
  change (FKO_ENC_MODE_ASYMMETRIC =? FKO_ENC_MODE_ASYMMETRIC) with true. cbn [andb]. destruct (len <? 0); [discriminate|]. unfold gpg_decrypt.
  set (x1 := put_c (set_c_etype FKO_ENCRYPTION_GPG (x_c x)) x).
  destruct (if _ : bool then _ else _) as [[e0 c1]|] eqn:AP; [|discriminate]. cbv zeta. intros R.
  destruct (c_crypt c1) as [t|] eqn:CT; [|discriminate R]. destruct (b64_decode t) as [cipher|] eqn:B; [|discriminate R].
  destruct (gpgme_decrypt _ _ _ _) as [[[e1 o] z]|] eqn:G; [|discriminate R].
  destruct e1 as [[]|]; try discriminate R.
  apply gpgme_decrypt_ok in G. destruct G as (e & z0 & pt & sigs & IN & P & -> & XC & W & V & S).
  cbn [x_c put_c x_verify x_ignore] in XC, V, S. rewrite XC in R.
  destruct (negb _); [discriminate R|]. unfold lift in R.
  destruct (decode_spa_data H _) as [[e2 c2]|] eqn:D; [|discriminate R]. unfold success in R. injection R as -> <-.
  destruct (init_live p x (put_c c1 x1) w _ z0 IV eq_refl eq_refl eq_refl eq_refl IN) as [_ J]. destruct (J e P) as (O & _).
  eexists e, t, cipher, pt, sigs, _. split; [exact O|]. split; [|split; [exact B|split; [exact W|split; [|split; [exact D|]]]]]; [exact CT|reflexivity|].
  destruct IV as [I1 I2 I3 I4 I5 I6 I7]. rewrite <- I6, <- I7. intros VT. destruct (S VT) as (s & l & -> & XS & T). exists s, l.
  split; [reflexivity|]. split; [|exact T]. unfold get_gpg_signature_fpr, with_sig. cbn [x_c put_c x_verify x_sig].
  rewrite V. change (x_verify x1) with (x_verify x). rewrite VT, XS. cbn [negb].
  replace (c_etype c2) with FKO_ENCRYPTION_GPG; [reflexivity|].
  rewrite (decode_etype _ _ _ D). cbn [c_etype set_c_enc_len set_c_enc].
  destruct (c_gpg (x_c x1)); [injection AP as _ <-; reflexivity|]. rewrite (prefix_etype _ _ _ AP). reflexivity.
Qed.
(** ** The handle *)
Definition lost (x : gx) : Prop := x_have x = true /\ x_ptr x = GNull.
Lemma after_lost x y : after x y -> lost x -> lost y.
Proof. intros (_ & _ & _ & _ & _ & _ & _ & _ & A & _) [L P]. destruct (A L) as [V [Q|Q]]; split; congruence. Qed.
Lemma init_lost w x : lost x -> init_gpgme w x = (success, x).
Proof. intros [L _]. unfold init_gpgme. now rewrite L. Qed.
Lemma drop_lost x y : x_have x = true -> drop x = Done y -> lost y.
Proof. unfold drop, lost. intros V. destruct (x_ptr x); intros E; inversion E; subst; destruct x; cbn in *; auto. Qed.
Lemma failed_lost g x e o y : x_have x = true -> match drop_with g x with Done (e0, x0) => Done (e0, @None bytes, x0) | Bad t => Bad t end = Done (e, o, y) -> lost y.
Proof. unfold drop_with. intros V. destruct (drop x) eqn:D; [|discriminate]. intros E. injection E as _ _ <-. eapply drop_lost; eauto. Qed.

Lemma init_not_gave w x e y : init_gpgme w x = (e, y) -> (exists g, e = Gpg g /\ gave_up g) -> False.
Proof.
  unfold init_gpgme. intros E (g & -> & G). destruct (x_have x); [discriminate|]. destruct (negb (w_engine w)); [|destruct (negb (w_new w)); [|discriminate]];
    injection E as <- _; unfold gave_up in G; cbn in G; intuition discriminate.
Qed.

Lemma encrypt_lost_after w pw salt x g y : encrypt_data H w pw salt x = Done (Gpg g, y) -> gave_up g -> lost y.
Proof.
  unfold encrypt_data. cbv zeta. destruct (if _ : bool then _ else _) as [[e0 c1]|]; [|discriminate]. intros R GU.
  repeat (into R).
  { unfold lift in R. destruct (rijndael_encrypt _ _ _ _) as [[]|]; discriminate R. }
  clear - R GU. unfold gpg_encrypt in R. cbv zeta in R. cbn [x_c put_c x_rcpt] in R.
  destruct (negb (is_valid_encoded_msg_len (c_enc_len c1))); [discriminate R|]. destruct (negb (is_b64_digest_len _)); [discriminate R|].
  destruct (x_rcpt x); [|injection R as <- _; unfold gave_up in GU; cbn in GU; intuition discriminate].
  destruct (c_enc c1); [|discriminate R]. destruct (c_digest c1); [|discriminate R]. destruct (_ >? _); [discriminate R|]. destruct (negb (is_valid_encoded_msg_len (zlen _))); [discriminate R|].
  destruct (gpgme_encrypt _ _ _ _) as [[[e2 o] z]|] eqn:G; [|discriminate R].
  assert (EZ : e2 = Gpg g /\ z = y).
  { destruct e2 as [[]|]; destruct o; try (destruct (negb _)); try discriminate R; injection R as <- <-; auto. }
  destruct EZ as [-> ->]. clear R. unfold gpgme_encrypt in G. destruct (init_gpgme w _) as [e3 z3] eqn:IN.
  destruct e3 as [[]|]; try discriminate G.
  2: { injection G as -> _ _. exfalso. eapply init_not_gave; [exact IN|]. eauto. }
  pose proof (init_have _ _ _ IN) as V.
  destruct (negb (w_data w)); [eapply failed_lost; eauto|]. destruct (x_ptr z3); [eapply failed_lost; eauto| |discriminate G].
  destruct (negb (w_proto w)); [eapply failed_lost; eauto|]. destruct (negb (w_data2 w)); [eapply failed_lost; eauto|].
  match type of G with match ?b with _ => _ end = _ => destruct b as [[[]|]|] end; try (eapply failed_lost; eassumption). discriminate G.
Qed.
Lemma decrypt_lost_after w pw len x g y : decrypt_data H w pw len x = Done (Gpg g, y) -> gave_up g -> lost y.
Proof.
  unfold decrypt_data. cbv zeta. intros R GU. destruct (len <? 0); [discriminate R|]. destruct (_ && _).
  2: { destruct (_ =? _); [|discriminate R]. unfold lift in R. destruct (rijndael_decrypt _ _ _) as [[]|]; discriminate R. }
  unfold gpg_decrypt in R. destruct (if _ : bool then _ else _) as [[e0 c1]|]; [|discriminate R]. cbv zeta in R.
  destruct (c_crypt c1) as [t|]; [|discriminate R]. destruct (b64_decode t); [|discriminate R].
  destruct (gpgme_decrypt _ _ _ _) as [[[e2 o] z]|] eqn:G; [|discriminate R].
  assert (EZ : e2 = Gpg g /\ z = y).
  { destruct e2 as [[]|]; destruct o; try (destruct (negb _)); try discriminate R; try (unfold lift in R; destruct (decode_spa_data _ _) as [[]|]; discriminate R); injection R as <- <-; auto. }
  destruct EZ as [-> ->]. clear R. unfold gpgme_decrypt in G. destruct (init_gpgme w _) as [e3 z3] eqn:IN.
  destruct e3 as [[]|]; try discriminate G.
  2: { injection G as -> _ _. exfalso. eapply init_not_gave; [exact IN|]. eauto. }
  pose proof (init_have _ _ _ IN) as V.
  destruct (negb (w_data w)); [eapply failed_lost; eauto|]. destruct (negb (w_data2 w)); [eapply failed_lost; eauto|].
  destruct (x_ptr z3); [eapply failed_lost; eauto| |discriminate G].
  destruct (_ && _); [discriminate G|]. destruct (w_open _ _ _ _) as [[[pt u] sigs]|]; [|eapply failed_lost; eauto].
  destruct u; [eapply failed_lost; eauto|]. destruct (x_verify z3); [|discriminate G].
  destruct (process_sigs sigs z3) as [e4 z4] eqn:PS. destruct (process_after _ _ _ _ PS) as [_ HV].
  destruct e4 as [[]|]; try discriminate G; destruct (drop z4) eqn:D; try discriminate G; injection G as _ _ <-; (eapply drop_lost; [rewrite HV; exact V|exact D]).
Qed.

Lemma set_recipient_lost w n x e y : lost x -> set_gpg_recipient w n x = Done (e, y) -> lost y /\ e <> success.
Proof.
  intros L. unfold set_gpg_recipient. destruct (negb _); [intros R; injection R as <- <-; split; [exact L|discriminate]|].
  assert (L' : lost (put_rcpt (Some n) x)) by exact L. unfold get_gpg_key. rewrite (init_lost w _ L'). unfold success. cbv iota beta.
  rewrite (proj2 L'). intros R. injection R as <- <-. split; [exact L|discriminate].
Qed.
Lemma set_signer_lost w n x e y : lost x -> set_gpg_signer w n x = Done (e, y) -> lost y /\ e <> success.
Proof.
  intros L. unfold set_gpg_signer. destruct (negb _); [intros R; injection R as <- <-; split; [exact L|discriminate]|].
  assert (L' : lost (put_sgn (Some n) x)) by exact L. unfold get_gpg_key. rewrite (init_lost w _ L'). unfold success. cbv iota beta.
  rewrite (proj2 L'). intros R. injection R as <- <-. split; [exact L|discriminate].
Qed.
Lemma lost_step w k x a y : lost x -> step H w k x = Done (a, y) -> lost y.
Proof.
  intros L R. destruct k; cbn [step] in R.
  - unfold plainly, set_gpg_exe in R. destruct (w_isreg w p); injection R as _ <-; exact L.
  - unfold plainly, set_gpg_home_dir in R. destruct (w_isdir w p); injection R as _ <-; exact L.
  - destruct (set_gpg_recipient w n x) as [[e z]|] eqn:E; [|discriminate]. injection R as _ <-. eapply set_recipient_lost; eauto.
  - destruct (set_gpg_signer w n x) as [[e z]|] eqn:E; [|discriminate]. injection R as _ <-. eapply set_signer_lost; eauto.
  - injection R as _ <-. exact L.
  - injection R as _ <-. exact L.
  - destruct (encrypt_data H w pw salt x) as [[e z]|] eqn:E; [|discriminate]. injection R as _ <-. eapply after_lost; [eapply encrypt_after; eauto|exact L].
  - destruct (decrypt_data H w pw len x) as [[e z]|] eqn:E; [|discriminate]. injection R as _ <-. eapply after_lost; [eapply decrypt_after; eauto|exact L].
  - unfold reading in R. destruct (get_gpg_signature_fpr x); [|discriminate]. injection R as _ <-. exact L.
  - unfold reading in R. destruct (get_gpg_signature_id x); [|discriminate]. injection R as _ <-. exact L.
  - injection R as _ <-. exact L.
Qed.
(** In a context whose handle is gone, nothing that needs gpgme succeeds. *)
Lemma lost_asks w k x e b y : lost x -> asks (x_c x) k -> step H w k x = Done ((e, b), y) -> e <> success.
Proof.
  intros L A R ->. destruct k; cbn [step asks] in *; try contradiction.
  - destruct (set_gpg_recipient w n x) as [[e z]|] eqn:E; [|discriminate]. injection R as -> _ _. now apply set_recipient_lost in E.
  - destruct (set_gpg_signer w n x) as [[e z]|] eqn:E; [|discriminate]. injection R as -> _ _. now apply set_signer_lost in E.
  - destruct (encrypt_data H w pw salt x) as [[e z]|] eqn:E; [|discriminate]. injection R as -> _ _. revert E.
    unfold encrypt_data. cbv zeta. destruct (if _ : bool then _ else _) as [[e0 c1]|] eqn:EN; [|discriminate]. intros R.
    assert (ET1 : c_etype c1 = FKO_ENCRYPTION_GPG).
    { destruct (match c_enc (x_c x) with Some _ => c_dirty (x_c x) | None => true end); [rewrite (encode_etype _ _ _ EN); exact A|injection EN as _ <-; exact A]. }
    rewrite ET1 in R. destruct (ok e0) eqn:OK0; cbn [negb] in R; [|unfold success in R; injection R as -> _; discriminate OK0].
    destruct (is_valid_encoded_msg_len (c_enc_len c1)) eqn:VL; cbn [negb] in R; [|discriminate R].
    change (FKO_ENCRYPTION_GPG =? FKO_ENCRYPTION_RIJNDAEL) with false in R. change (FKO_ENCRYPTION_GPG =? FKO_ENCRYPTION_GPG) with true in R. cbv iota in R.
    unfold gpg_encrypt in R. cbv zeta in R. cbn [x_c put_c x_rcpt] in R. rewrite VL in R. cbn [negb] in R.
    destruct (is_b64_digest_len (c_digest_len c1)); cbn [negb] in R; [|discriminate R].
    destruct (x_rcpt x) as [n|]; [|discriminate R]. destruct (c_enc c1) as [enc|]; [|discriminate R]. destruct (c_digest c1) as [d|]; [|discriminate R].
    destruct (_ >? _); [discriminate R|]. destruct (negb (is_valid_encoded_msg_len (zlen _))); [discriminate R|].
    destruct (gpgme_encrypt _ _ _ _) as [[[e2 o] z']|] eqn:G; [|discriminate R].
    assert (L1 : lost (put_c c1 x)) by exact L. unfold gpgme_encrypt in G. rewrite (init_lost w _ L1), (proj2 L1) in G. unfold success in G. cbv iota beta in G.
    assert (N : e2 <> success) by (destruct (negb (w_data w)); eapply failed_not; exact G).
    destruct e2 as [[]|]; try discriminate R. now apply N.
  - destruct (decrypt_data H w pw len x) as [[e z]|] eqn:E; [|discriminate]. injection R as -> _ _. revert E. destruct A as [A1 A2].
    unfold decrypt_data. cbv zeta. rewrite A1, A2. change (FKO_ENCRYPTION_GPG =? FKO_ENCRYPTION_GPG) with true.
    change (FKO_ENC_MODE_ASYMMETRIC =? FKO_ENC_MODE_ASYMMETRIC) with true. cbn [andb]. destruct (len <? 0); [discriminate|]. unfold gpg_decrypt.
    destruct (if _ : bool then _ else _) as [[e0 c1]|] eqn:AP; [|discriminate]. cbv zeta. intros R.
    destruct (c_crypt c1) as [t|] eqn:CT; [|discriminate R]. destruct (b64_decode t) as [cipher|] eqn:B; [|discriminate R].
    destruct (gpgme_decrypt _ _ _ _) as [[[e2 o] z']|] eqn:G; [|discriminate R].
    match type of G with gpgme_decrypt _ _ _ ?q = _ => assert (L1 : lost q) by exact L end.
    unfold gpgme_decrypt in G. rewrite (init_lost w _ L1), (proj2 L1) in G. unfold success in G. cbv iota beta in G.
    assert (N : e2 <> success) by (destruct (negb (w_data w)); [|destruct (negb (w_data2 w))]; eapply failed_not; exact G).
    destruct e2 as [[]|]; try discriminate R. now apply N.
Qed.

(** ** No handle is used after its release *)
Definition kept (x : gx) : Prop := x_ptr x <> GReleased.
Lemma init_kept w x e y : init_gpgme w x = (e, y) -> kept x -> kept y.
Proof. intros E K. pose proof (init_cases w x) as C. rewrite E in C. destruct C as [(_ & _ & ->)|[(_ & _ & ->)|(_ & _ & ->)]]; try exact K. discriminate. Qed.
Lemma after_kept x y : x_have x = false -> x_ptr x = GNull -> after x y -> kept y.
Proof. intros V P (_ & _ & _ & _ & _ & _ & _ & _ & _ & A). unfold kept. destruct (A V) as [[_ Q]|[_ [Q|Q]]]; rewrite Q, ?P; discriminate. Qed.
Lemma drop_kept x : kept x -> exists y, drop x = Done y /\ kept y.
Proof. unfold drop, kept. intros K. destruct (x_ptr x); try now contradiction K. all: eexists; split; [reflexivity|discriminate]. Qed.
Lemma failed_kept g x r : kept x -> match drop_with g x with Done (e0, x0) => Done (e0, @None bytes, x0) | Bad t => Bad t end = r ->
  match r with Done (_, _, y) => kept y | Bad t => t <> Stale end.
Proof. intros K <-. unfold drop_with. destruct (drop_kept x K) as (y & -> & KY). exact KY. Qed.

Definition tidy {A} (f : A -> gx) (r : res A) : Prop := match r with Done a => kept (f a) | Bad t => t <> Stale end.
Lemma get_key_kept w sg x : lists w -> kept x -> tidy snd (get_gpg_key w sg x).
Proof.
  intros L K. unfold get_gpg_key. destruct (init_gpgme w x) as [e z] eqn:E. pose proof (init_kept _ _ _ _ E K) as KZ.
  destruct e as [[]|]; try exact KZ. destruct (x_ptr z) eqn:P; [exact KZ| |now contradiction KZ].
  match goal with |- context [w_list w ?a ?b ?c] => destruct (w_list w a b c) as [l|] eqn:W; [|now apply L in W] end.
  destruct l as [|[k|] [|[k2|] l]]; exact KZ.
Qed.
Lemma gpgme_encrypt_kept w pw plain x : kept x -> tidy snd (gpgme_encrypt w pw plain x).
Proof.
  intros K. unfold gpgme_encrypt. destruct (init_gpgme w x) as [e z] eqn:E. pose proof (init_kept _ _ _ _ E K) as KZ.
  assert (F : forall g, tidy snd match drop_with g z with Done (e0, x0) => Done (e0, @None bytes, x0) | Bad t => Bad t end).
  { intros g. unfold drop_with. destruct (drop_kept z KZ) as (y & -> & KY). exact KY. }
  destruct e as [[]|]; try exact KZ. destruct (negb (w_data w)); [apply F|]. destruct (x_ptr z) eqn:P; [apply F| |now contradiction KZ].
  destruct (negb (w_proto w)); [apply F|]. destruct (negb (w_data2 w)); [apply F|].
  match goal with |- tidy _ match ?b with _ => _ end => destruct b as [[[]|]|] end; try apply F. exact KZ.
Qed.
Lemma gpgme_decrypt_kept w pw t x : kept x -> tidy snd (gpgme_decrypt w pw t x).
Proof.
  intros K. unfold gpgme_decrypt. destruct (init_gpgme w x) as [e z] eqn:E. pose proof (init_kept _ _ _ _ E K) as KZ.
  assert (F : forall g, tidy snd match drop_with g z with Done (e0, x0) => Done (e0, @None bytes, x0) | Bad t => Bad t end).
  { intros g. unfold drop_with. destruct (drop_kept z KZ) as (y & -> & KY). exact KY. }
  destruct e as [[]|]; try exact KZ. destruct (negb (w_data w)); [apply F|]. destruct (negb (w_data2 w)); [apply F|].
  destruct (x_ptr z) eqn:P; [apply F| |now contradiction KZ].
  destruct (_ && _); [discriminate|]. destruct (w_open _ _ _ _) as [[[pt u] sigs]|]; [|apply F].
  destruct u; [apply F|]. destruct (x_verify z); [|exact KZ].
  destruct (process_sigs sigs z) as [e4 z4] eqn:PS.
  assert (K4 : kept z4).
  { unfold process_sigs in PS. destruct sigs; [injection PS as _ <-; exact KZ|]. cbv zeta in PS. repeat (into PS); injection PS as _ <-; exact KZ. }
  destruct (drop_kept z4 K4) as (y & DY & KY). rewrite DY. destruct e4 as [[]|]; try exact KY. exact K4.
Qed.
Lemma lift_kept r x : kept x -> tidy snd (lift r x).
Proof. intros K. unfold lift. destruct r as [[]|]; [exact K|discriminate]. Qed.
Lemma kept_step w k x : lists w -> kept x -> tidy snd (step H w k x).
Proof.
  intros L K. destruct k; cbn [step].
  - unfold plainly, set_gpg_exe. destruct (w_isreg w p); exact K.
  - unfold plainly, set_gpg_home_dir. destruct (w_isdir w p); exact K.
  - unfold set_gpg_recipient. destruct (negb _); [exact K|]. pose proof (get_key_kept w false (put_rcpt (Some n) x) L K) as G.
    destruct (get_gpg_key _ _ _) as [[[e k] z]|]; [|exact G]. destruct e as [[]|]; exact G.
  - unfold set_gpg_signer. destruct (negb _); [exact K|]. pose proof (get_key_kept w true (put_sgn (Some n) x) L K) as G.
    destruct (get_gpg_key _ _ _) as [[[e k] z]|]; [|exact G]. destruct e as [[]|]; exact G.
  - exact K.
  - exact K.
  - unfold encrypt_data. cbv zeta. destruct (if _ : bool then _ else _) as [[e0 c1]|]; [|discriminate].
    destruct (negb (ok e0)); [exact K|]. destruct (negb _); [exact K|]. destruct (_ =? _).
    { destruct pw as [pw|]; [|exact K]. match goal with |- context [lift ?r ?x] => pose proof (lift_kept r x K) as Q; destruct (lift r x) as [[]|]; exact Q end. }
    destruct (_ =? _); [|exact K]. unfold gpg_encrypt. cbv zeta. repeat match goal with
      | |- context [gpgme_encrypt ?a ?b ?c ?d] => let Q := fresh in pose proof (gpgme_encrypt_kept a b c d K) as Q; destruct (gpgme_encrypt a b c d) as [[[[[]|] [|]] z]|]; try exact Q
      | |- context [if ?b then _ else _] => destruct b
      | |- context [match ?b with Some _ => _ | None => _ end] => destruct b
      end; try exact K; try discriminate.
    all: try match goal with Q : tidy _ _ |- _ => exact Q end.
  - unfold decrypt_data. cbv zeta. destruct (len <? 0); [exact K|]. destruct (_ && _).
    2: { destruct (_ =? _); [|exact K]. match goal with |- context [lift ?r ?x] => pose proof (lift_kept r x K) as Q; destruct (lift r x) as [[]|]; exact Q end. }
    unfold gpg_decrypt. destruct (if _ : bool then _ else _) as [[e0 c1]|]; [|discriminate]. cbv zeta.
    destruct (c_crypt c1); [|discriminate]. destruct (b64_decode _); [|exact K].
    match goal with |- context [gpgme_decrypt ?a ?b ?c ?d] => pose proof (gpgme_decrypt_kept a b c d K) as Q; destruct (gpgme_decrypt a b c d) as [[[e2 o] z]|]; [|exact Q] end.
    destruct e2 as [[]|], o; try exact Q. destruct (negb _); [exact Q|].
    match goal with |- context [lift ?r ?x] => pose proof (lift_kept r x Q) as Q2; destruct (lift r x) as [[]|]; exact Q2 end.
  - unfold reading, get_gpg_signature_fpr, with_sig. destruct (negb _); [exact K|]. destruct (negb _); [exact K|]. destruct (x_sig x); exact K.
  - unfold reading, get_gpg_signature_id, with_sig. destruct (negb _); [exact K|]. destruct (negb _); [exact K|]. destruct (x_sig x); [|exact K].
    destruct (sg_print s); [|discriminate]. destruct (_ <? _); [discriminate|exact K].
  - exact K.
Qed.

(** ** A NULL passphrase *)
Definition no_nopass {A} (r : res A) : Prop := r <> Bad NoPass.
Lemma drop_np g x : @no_nopass (gerr * option bytes * gx) match drop_with g x with Done (e0, x0) => Done (e0, @None bytes, x0) | Bad t => Bad t end.
Proof. unfold drop_with, drop, no_nopass. destruct (x_ptr x); discriminate. Qed.
Lemma get_key_np w sg x : no_nopass (get_gpg_key w sg x).
Proof.
  unfold get_gpg_key, no_nopass. destruct (init_gpgme w x) as [e z]. destruct e as [[]|]; try discriminate. destruct (x_ptr z); try discriminate.
  destruct (w_list _ _ _ _) as [[|[k|] [|[k2|] l]]|]; discriminate.
Qed.
Lemma gpgme_encrypt_np w pw plain x : no_nopass (gpgme_encrypt w pw plain x).
Proof.
  unfold gpgme_encrypt. destruct (init_gpgme w x) as [e z]. destruct e as [[]|]; try discriminate.
  destruct (negb (w_data w)); [apply drop_np|]. destruct (x_ptr z); [apply drop_np| |discriminate].
  destruct (negb (w_proto w)); [apply drop_np|]. destruct (negb (w_data2 w)); [apply drop_np|].
  match goal with |- no_nopass match ?b with _ => _ end => destruct b as [[[]|]|] end; try apply drop_np. discriminate.
Qed.
Lemma gpgme_decrypt_np w pw t x : no_nopass (gpgme_decrypt w (Some pw) t x).
Proof.
  unfold gpgme_decrypt. destruct (init_gpgme w x) as [e z]. destruct e as [[]|]; try discriminate.
  destruct (negb (w_data w)); [apply drop_np|]. destruct (negb (w_data2 w)); [apply drop_np|]. destruct (x_ptr z); [apply drop_np| |discriminate].
  rewrite andb_false_r. destruct (w_open _ _ _ _) as [[[pt u] sigs]|]; [|apply drop_np]. destruct u; [apply drop_np|]. destruct (x_verify z); [|discriminate].
  destruct (process_sigs sigs z) as [e4 z4]. unfold no_nopass, drop. destruct e4 as [[]|]; destruct (x_ptr z4); discriminate.
Qed.
Lemma nopass_step w k x : step H w k x = Bad NoPass -> exists len, k = Decrypt None len.
Proof.
  destruct k; cbn [step]; intros R.
  - unfold plainly, set_gpg_exe in R. destruct (w_isreg w p); discriminate R.
  - unfold plainly, set_gpg_home_dir in R. destruct (w_isdir w p); discriminate R.
  - exfalso. unfold plainly, set_gpg_recipient in R. destruct (negb _); [discriminate R|]. pose proof (get_key_np w false (put_rcpt (Some n) x)) as G.
    destruct (get_gpg_key _ _ _) as [[[[[]|] k] z]|]; try discriminate R. injection R as ->. now apply G.
  - exfalso. unfold plainly, set_gpg_signer in R. destruct (negb _); [discriminate R|]. pose proof (get_key_np w true (put_sgn (Some n) x)) as G.
    destruct (get_gpg_key _ _ _) as [[[[[]|] k] z]|]; try discriminate R. injection R as ->. now apply G.
  - discriminate R.
  - discriminate R.
  - exfalso. unfold encrypt_data in R. cbv zeta in R. destruct (if _ : bool then _ else _) as [[e0 c1]|]; [|discriminate R].
    destruct (negb (ok e0)); [discriminate R|]. destruct (negb _); [discriminate R|]. destruct (_ =? _).
    { destruct pw as [pw|]; [|discriminate R]. unfold lift in R. destruct (rijndael_encrypt _ _ _ _) as [[]|]; discriminate R. }
    destruct (_ =? _); [|discriminate R]. unfold gpg_encrypt in R. cbv zeta in R.
    destruct (negb _); [discriminate R|]. destruct (negb _); [discriminate R|]. destruct (x_rcpt _); [|discriminate R].
    destruct (c_enc _); [|discriminate R]. destruct (c_digest _); [|discriminate R]. destruct (_ >? _); [discriminate R|]. destruct (negb _); [discriminate R|].
    match type of R with context [gpgme_encrypt ?a ?b ?c ?d] => pose proof (gpgme_encrypt_np a b c d) as Q; destruct (gpgme_encrypt a b c d) as [[[[[]|] [|]] z]|]; try discriminate R end.
    + destruct (negb _); discriminate R.
    + injection R as ->. now apply Q.
  - destruct pw as [pw|]; [exfalso|eauto]. unfold decrypt_data in R. cbv zeta in R. destruct (len <? 0); [discriminate R|]. destruct (_ && _).
    2: { destruct (_ =? _); [|discriminate R]. unfold lift in R. destruct (rijndael_decrypt _ _ _) as [[]|]; discriminate R. }
    unfold gpg_decrypt in R. destruct (if _ : bool then _ else _) as [[e0 c1]|]; [|discriminate R]. cbv zeta in R.
    destruct (c_crypt c1); [|discriminate R]. destruct (b64_decode _); [|discriminate R].
    match type of R with context [gpgme_decrypt ?a ?b ?c ?d] => pose proof (gpgme_decrypt_np a pw c d) as Q; destruct (gpgme_decrypt a b c d) as [[[[[]|] [|]] z]|]; try discriminate R end.
    + destruct (negb _); [discriminate R|]. unfold lift in R. destruct (decode_spa_data _ _) as [[]|]; discriminate R.
    + injection R as ->. now apply Q.
  - exfalso. unfold reading, get_gpg_signature_fpr, with_sig in R. destruct (negb _); [discriminate R|]. destruct (negb _); [discriminate R|]. destruct (x_sig x); [|discriminate R]. discriminate R.
  - exfalso. unfold reading, get_gpg_signature_id, with_sig in R. destruct (negb _); [discriminate R|]. destruct (negb _); [discriminate R|]. destruct (x_sig x); [|discriminate R]. destruct (sg_print s); [|discriminate R]. destruct (_ <? _); discriminate R.
  - discriminate R.
Qed.

(** ** Histories *)
Lemma kept_history c p x : history H (fresh c) p x -> (forall w k a, In (w, k, a) p -> lists w) -> kept x.
Proof.
  induction 1 as [|p x w k a x' HI IH S]; intros L; [discriminate|].
  pose proof (kept_step w k x (L w k a (or_introl eq_refl)) (IH (fun w0 k0 a0 I0 => L w0 k0 a0 (or_intror I0)))) as T. rewrite S in T. exact T.
Qed.
Definition runs (k : call) : Prop := match k with Encrypt _ _ | Decrypt _ _ => True | _ => False end.
Lemma lost_history c p x w0 k0 g b : history H (fresh c) p x -> In (w0, k0, (Gpg g, b)) p -> runs k0 -> gave_up g -> lost x.
Proof.
  induction 1 as [|p x w k a x' HI IH S]; intros IN RN GU; [destruct IN|]. destruct IN as [E|IN]; [|eapply lost_step; [exact (IH IN RN GU)|exact S]].
  injection E as -> -> ->. destruct k0; try destruct RN; cbn [step] in S.
  - destruct (encrypt_data _ _ _ _ _) as [[e z]|] eqn:E; [|discriminate S]. injection S as -> _ <-. eapply encrypt_lost_after; eauto.
  - destruct (decrypt_data _ _ _ _ _) as [[e z]|] eqn:E; [|discriminate S]. injection S as -> _ <-. eapply decrypt_lost_after; eauto.
Qed.
End gpg2.
