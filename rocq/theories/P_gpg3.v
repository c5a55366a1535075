(** Proofs about M_gpg: the constructor, and the daemon. *)
From Verif Require Import Bytes M_base64 M_util M_message M_codec M_cipher M_ctx P_bytes M_access M_incoming M_gpg S_gpg P_gpg P_gpg2.
From Coq Require Import Init.Byte List ZArith Bool Lia.
Import ListNotations.
Open Scope Z_scope.

Ltac into E := match type of E with
  | context [match ?b with _ => _ end] => let Q := fresh "Q" in destruct b eqn:Q; try discriminate E
  end.

Section gpg3.
Variable H : hashes.

(** ** The context made for a packet *)
Lemma salted_etype c e c' : add_salted_str c = Ok (e, c') -> c_etype c' = c_etype c.
Proof. unfold add_salted_str. intros R. repeat (into R); injection R as _ <-; destruct c; reflexivity. Qed.
Lemma set_hmac_etype k c e c' : set_spa_hmac H k c = Ok (e, c') -> c_etype c' = c_etype c.
Proof. unfold set_spa_hmac. intros R. repeat (into R); injection R as _ <-; destruct c; reflexivity. Qed.
Lemma verify_etype k c e c' : verify_hmac H k c = Ok (e, c') -> c_etype c' = c_etype c.
Proof.
  unfold verify_hmac. cbv zeta. destruct k as [k|]; [|intros R; injection R as _ <-; reflexivity].
  destruct (negb _); [intros R; injection R as _ <-; reflexivity|]. destruct (_ >? _); [intros R; injection R as _ <-; reflexivity|].
  destruct (_ || _); [intros R; injection R as _ <-; reflexivity|]. destruct (_ <? _); [intros R; injection R as _ <-; reflexivity|].
  destruct (c_crypt c) as [t|]; [|discriminate].
  set (c1 := set_c_crypt_len _ _). assert (E1 : c_etype c1 = c_etype c) by reflexivity. clearbody c1.
  assert (Y : forall e2 c2, (if c_mode c1 =? FKO_ENC_MODE_ASYMMETRIC then if c_gpg c1 then Ok (FKO_SUCCESS, c1) else add_gpg_prefix c1
     else if c_salted c1 then Ok (FKO_SUCCESS, c1) else add_salted_str c1) = Ok (e2, c2) -> c_etype c2 = c_etype c1).
  { intros e2 c2. destruct (_ =? _).
    - destruct (c_gpg c1); [intros R; injection R as _ <-; reflexivity|apply prefix_etype].
    - destruct (c_salted c1); [intros R; injection R as _ <-; reflexivity|apply salted_etype]. }
  destruct (if _ : bool then _ else _) as [[e2 c2]|]; [|discriminate]. specialize (Y _ _ eq_refl).
  destruct (negb (ok e2)); [intros R; injection R as _ <-; congruence|].
  destruct (set_spa_hmac H (Some k) c2) as [[e3 c3]|] eqn:SH; [|discriminate]. apply set_hmac_etype in SH.
  destruct (negb (ok e3)); [intros R; injection R as _ <-; congruence|].
  destruct (constant_runtime_cmp _ _ _) as [[| |]|]; intros R; try discriminate R; injection R as _ <-; congruence.
Qed.
Lemma new_etype msg mode hk ht e c : fko_new_with_data H (Some msg) None mode hk ht = Ok (e, Live c) -> c_etype c = 0.
Proof.
  unfold fko_new_with_data. cbv zeta. destruct (negb _); [discriminate|].
  unfold set_encryption_mode, set_hmac_type.
  destruct ((mode <? 0) || _); cbn [ok negb]; [discriminate|]. destruct ((ht <? 0) || _); cbn [ok negb]; [discriminate|].
  destruct hk as [[|x r]|].
  - cbn [ok negb]. intros R. injection R as _ <-. reflexivity.
  - match goal with |- context [verify_hmac H ?k ?c] => destruct (verify_hmac H k c) as [[e1 c1]|] eqn:V end; [|discriminate]. apply verify_etype in V.
    destruct (negb (ok e1)); [discriminate|]. intros R. injection R as _ <-. rewrite V. reflexivity.
  - cbn [ok negb]. intros R. injection R as _ <-. reflexivity.
Qed.
Lemma new_recipient w w' msg mode hk ht x n : new_with_data H w msg None mode hk ht = Done (success, Some x) ->
  step H w' (SetRecipient n) x = Done ((Gpg WRONG_ENCRYPTION_TYPE, None), x).
Proof.
  unfold new_with_data. destruct (fko_new_with_data H (Some msg) None mode hk ht) as [[e h]|] eqn:N; [|discriminate]. intros R.
  destruct e; try discriminate R. destruct h as [|c|]; try discriminate R. injection R as <-. apply new_etype in N.
  cbn [step]. unfold set_gpg_recipient. cbn [x_c fresh put_verify blank]. rewrite N. reflexivity.
Qed.

(** ** The constructor does not look at signatures when it is given a key *)
Lemma gpgme_decrypt_same w w' pw t x : same_but_signatures w w' -> x_verify x = false -> gpgme_decrypt w pw t x = gpgme_decrypt w' pw t x.
Proof.
  intros [E S] V. rewrite E. unfold gpgme_decrypt. unfold init_gpgme. cbn [w_engine w_new w_data w_data2 w_asks w_open].
  destruct (x_have x) eqn:HV; cbv iota beta.
  - rewrite V. destruct (negb (w_data w)); [reflexivity|]. destruct (negb (w_data2 w)); [reflexivity|]. destruct (x_ptr x); try reflexivity.
    destruct (_ && _); [reflexivity|]. specialize (S e (match pw with Some p => p | None => [] end) t).
    destruct (w_open w e _ t) as [[[a b] l]|], (w_open w' e _ t) as [[[a' b'] l']|]; try destruct S; try reflexivity. subst. reflexivity.
  - destruct (negb (w_engine w)); [reflexivity|]. destruct (negb (w_new w)); [reflexivity|]. unfold success. cbv iota beta. cbn [x_ptr put_ptr put_have x_verify]. rewrite V.
    destruct (negb (w_data w)); [reflexivity|]. destruct (negb (w_data2 w)); [reflexivity|].
    set (e := mkEngine _ _). destruct (_ && _); [reflexivity|]. specialize (S e (match pw with Some p => p | None => [] end) t).
    destruct (w_open w e _ t) as [[[a b] l]|], (w_open w' e _ t) as [[[a' b'] l']|]; try destruct S; try reflexivity. subst. reflexivity.
Qed.
Lemma decrypt_same w w' pw len x : same_but_signatures w w' -> x_verify x = false -> decrypt_data H w pw len x = decrypt_data H w' pw len x.
Proof.
  intros S V. unfold decrypt_data. cbv zeta. destruct (len <? 0); [reflexivity|]. destruct (_ && _); [|reflexivity].
  unfold gpg_decrypt. destruct (if _ : bool then _ else _) as [[e0 c1]|]; [|reflexivity]. cbv zeta.
  destruct (c_crypt c1) as [t|]; [|reflexivity]. destruct (b64_decode t) as [u|]; [|reflexivity]. rewrite (gpgme_decrypt_same w w'); [reflexivity|exact S|exact V].
Qed.
Lemma new_same w w' msg k mode hk ht : same_but_signatures w w' ->
  new_with_data H w msg (Some k) mode hk ht = new_with_data H w' msg (Some k) mode hk ht.
Proof.
  intros S. unfold new_with_data. destruct (fko_new_with_data H (Some msg) None mode hk ht) as [[e h]|]; [|reflexivity].
  destruct e; try reflexivity. destruct h; try reflexivity. now rewrite (decrypt_same w w').
Qed.

(** ** The daemon *)
Lemma opened w g a x t : x_have x = false -> x_exe x = gc_exe g -> x_home x = gc_home g ->
  x_verify x = gc_require g -> x_ignore x = (if gc_require g then gc_ignore g else true) -> x_sig x = None ->
  a_gpg_require_sig a = gc_require g -> a_gpg_ignore_sig_error a = gc_ignore g ->
  match M_incoming.gpgme_decrypt (as_gpg w g) a t with
  | Some (pt, s) => exists y, gpgme_decrypt w (Some (gc_pw g)) t x = Done (success, Some pt, y) /\ x_c y = x_c x /\ option_map reported (x_sig y) = s
  | None => exists e y, gpgme_decrypt w (Some (gc_pw g)) t x = Done (e, None, y) /\ e <> success
  end.
Proof.
  intros HV XE XH XV XI XS RS IG. unfold M_incoming.gpgme_decrypt, gpgme_decrypt, init_gpgme. rewrite HV. cbn [g_open as_gpg].
  destruct (w_engine w); cbn [negb andb]; [|do 2 eexists; split; [reflexivity|discriminate]].
  destruct (w_new w); cbn [negb andb]; [|do 2 eexists; split; [reflexivity|discriminate]].
  unfold success. cbv iota beta. cbn [x_ptr put_ptr put_have x_verify].
  destruct (w_data w); cbn [negb andb]; [|do 2 eexists; split; [reflexivity|discriminate]].
  destruct (w_data2 w); cbn [negb andb]; [|do 2 eexists; split; [reflexivity|discriminate]].
  rewrite XE, XH. fold (engine_of g). rewrite andb_false_r.
  destruct (w_open w (engine_of g) (gc_pw g) t) as [[[pt u] l]|]; [|do 2 eexists; split; [reflexivity|discriminate]].
  destruct u; [do 2 eexists; split; [reflexivity|discriminate]|]. rewrite RS, XV. destruct (gc_require g).
  - destruct l as [|s l]; cbn [map process_sigs]; [do 2 eexists; split; [reflexivity|discriminate]|]. cbn [x_ignore put_sig put_ptr put_have].
    rewrite IG, XI. destruct (gc_ignore g); [eexists; repeat split|]. cbn [reported sg_good sg_validity].
    destruct (negb (sg_status s =? 0) || (sg_valid s <? 3)); [do 2 eexists; split; [reflexivity|discriminate]|]. eexists; repeat split.
  - eexists. split; [reflexivity|]. split; [reflexivity|]. cbn. now rewrite XS.
Qed.

Lemma handle_gpg w g a c : c_etype c <> FKO_ENCRYPTION_GPG -> a_gpg_require_sig a = gc_require g -> a_gpg_ignore_sig_error a = gc_ignore g ->
  match (if g_params (as_gpg w g) a then gpg_decrypt_spa_data H (as_gpg w g) a c else Ok (FKO_ERROR_UNKNOWN, c, None)) with
  | Fault => handle_gpg_enc H w g (fresh c) = Bad Memory
  | Ok (FKO_SUCCESS, c', s) => exists y, handle_gpg_enc H w g (fresh c) = Done (success, y) /\ x_c y = c' /\ option_map reported (x_sig y) = s
  | Ok _ => exists e y, handle_gpg_enc H w g (fresh c) = Done (e, y) /\ e <> success
  end.
Proof.
  intros ET RS IG. unfold handle_gpg_enc, set_gpg_exe, set_gpg_home_dir. cbn [g_params as_gpg].
  assert (X : forall x, x_c x = c -> x_have x = false -> x_exe x = gc_exe g -> x_home x = gc_home g -> x_sig x = None ->
    match gpg_decrypt_spa_data H (as_gpg w g) a c with
    | Fault => match (match gc_id g with Some n => set_gpg_recipient w n x | None => Done (success, x) end) with
          | Bad t => Bad t
          | Done (_, x) =>
              let x := if gc_require g
                       then set_gpg_ignore_verify_error (if gc_ignore g then 1 else 0) (set_gpg_signature_verify 1 x)
                       else set_gpg_ignore_verify_error 1 (set_gpg_signature_verify 0 x) in
              decrypt_data H w (Some (gc_pw g)) 0 x
          end = Bad Memory
    | Ok (FKO_SUCCESS, c', s) => exists y, match (match gc_id g with Some n => set_gpg_recipient w n x | None => Done (success, x) end) with
          | Bad t => Bad t
          | Done (_, x) =>
              let x := if gc_require g
                       then set_gpg_ignore_verify_error (if gc_ignore g then 1 else 0) (set_gpg_signature_verify 1 x)
                       else set_gpg_ignore_verify_error 1 (set_gpg_signature_verify 0 x) in
              decrypt_data H w (Some (gc_pw g)) 0 x
          end = Done (success, y) /\ x_c y = c' /\ option_map reported (x_sig y) = s
    | Ok _ => exists e y, match (match gc_id g with Some n => set_gpg_recipient w n x | None => Done (success, x) end) with
          | Bad t => Bad t
          | Done (_, x) =>
              let x := if gc_require g
                       then set_gpg_ignore_verify_error (if gc_ignore g then 1 else 0) (set_gpg_signature_verify 1 x)
                       else set_gpg_ignore_verify_error 1 (set_gpg_signature_verify 0 x) in
              decrypt_data H w (Some (gc_pw g)) 0 x
          end = Done (e, y) /\ e <> success
    end).
  { intros x XC HV XE XH XS.
    assert (ID : (match gc_id g with Some n => set_gpg_recipient w n x | None => Done (success, x) end) = Done (match gc_id g with Some _ => Gpg WRONG_ENCRYPTION_TYPE | None => success end, x)).
    { destruct (gc_id g); [|reflexivity]. unfold set_gpg_recipient. rewrite XC. destruct (c_etype c =? FKO_ENCRYPTION_GPG) eqn:E; [lia|reflexivity]. }
    rewrite ID. cbv zeta. set (x1 := if gc_require g then _ else _).
    assert (Y : x_c x1 = c /\ x_have x1 = false /\ x_exe x1 = gc_exe g /\ x_home x1 = gc_home g /\ x_verify x1 = gc_require g /\
                x_ignore x1 = (if gc_require g then gc_ignore g else true) /\ x_sig x1 = None).
    { unfold x1. destruct (gc_require g); [destruct (gc_ignore g)|]; repeat split; assumption. }
    clearbody x1. clear ID XC HV XE XH XS x. destruct Y as (XC & HV & XE & XH & XV & XI & XS).
    unfold gpg_decrypt_spa_data, decrypt_data. cbv zeta. rewrite XC. change (0 <? 0) with false. cbv iota.
    destruct ((encryption_type (c_crypt c) =? FKO_ENCRYPTION_GPG) && (c_mode c =? FKO_ENC_MODE_ASYMMETRIC)) eqn:TY.
    - unfold gpg_decrypt. cbn [x_c put_c]. set (c0 := set_c_etype FKO_ENCRYPTION_GPG c).
      destruct (if c_gpg c0 then Ok (FKO_SUCCESS, c0) else add_gpg_prefix c0) as [[e0 c1]|]; [|reflexivity]. destruct (c_crypt c1) as [t|]; [|reflexivity].
      destruct (b64_decode t) as [u|]; [|do 2 eexists; split; [reflexivity|discriminate]].
      pose proof (opened w g a (put_c c1 (put_c c0 x1)) u HV XE XH XV XI XS RS IG) as O.
      destruct (M_incoming.gpgme_decrypt (as_gpg w g) a u) as [[pt s]|].
      + destruct O as (y & -> & YC & YS). unfold success. cbv iota beta. cbn [x_c put_c] in YC. rewrite YC.
        destruct (negb _); [do 2 eexists; split; [reflexivity|discriminate]|]. unfold lift.
        destruct (decode_spa_data H _) as [[e2 c2]|]; [|reflexivity].
        destruct e2; try (do 2 eexists; split; [reflexivity|discriminate]). eexists. split; [reflexivity|]. split; [reflexivity|exact YS].
      + destruct O as (e & y & -> & NE). destruct e as [[]|]; try (now contradiction NE); do 2 eexists; (split; [reflexivity|discriminate]).
    - unfold decrypt_spa_data. cbv zeta. rewrite TY. rewrite ztake_0.
      destruct (encryption_type (c_crypt c) =? FKO_ENCRYPTION_RIJNDAEL); [|do 2 eexists; split; [reflexivity|discriminate]]. unfold lift.
      destruct (rijndael_decrypt H _ _) as [[e2 c2]|]; [|reflexivity].
      destruct e2; try (do 2 eexists; split; [reflexivity|discriminate]). eexists. split; [reflexivity|]. split; [reflexivity|]. cbn. now rewrite XS. }
  destruct (gc_exe g) as [p|] eqn:GE.
  - destruct (w_isreg w p); cbn [andb]; [|do 2 eexists; split; [reflexivity|discriminate]]. unfold success at 1 3 5. cbv iota beta.
    destruct (gc_home g) as [q|] eqn:GH.
    + destruct (w_isdir w q); [|do 2 eexists; split; [reflexivity|discriminate]]. exact (X (put_home (Some q) (put_exe (Some p) (fresh c))) eq_refl eq_refl eq_refl eq_refl eq_refl).
    + exact (X (put_exe (Some p) (fresh c)) eq_refl eq_refl eq_refl eq_refl eq_refl).
  - cbn [andb]. destruct (gc_home g) as [q|] eqn:GH.
    + destruct (w_isdir w q); [|do 2 eexists; split; [reflexivity|discriminate]]. exact (X (put_home (Some q) (fresh c)) eq_refl eq_refl eq_refl eq_refl eq_refl).
    + exact (X (fresh c) eq_refl eq_refl eq_refl eq_refl eq_refl).
Qed.
End gpg3.
