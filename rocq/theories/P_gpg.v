(** Proofs about M_gpg: the invariant of a context over its calls. *)
From Verif Require Import Bytes M_base64 M_util M_message M_codec M_cipher M_ctx P_bytes M_gpg S_gpg.
From Coq Require Import Init.Byte List ZArith Bool Lia.
Import ListNotations.
Open Scope Z_scope.

(** The part of a context that belongs to GnuPG. *)
Definition same_gpg (x y : gx) : Prop := y = put_c (x_c y) x.
Lemma same_gpg_refl x : same_gpg x x. Proof. destruct x; reflexivity. Qed.
Lemma same_put_c x c : same_gpg x (put_c c x). Proof. destruct x; reflexivity. Qed.

(** What [init_gpgme] does to a context. *)
Lemma init_cases w x : let '(e, y) := init_gpgme w x in
  (e = success /\ x_have x = true /\ y = x) \/
  (e = success /\ x_have x = false /\
   y = put_have true (put_ptr (GLive (mkEngine (match x_exe x with Some p => p | None => GPG_EXE end) (x_home x))) x)) \/
  (e <> success /\ x_have x = false /\ y = x).
Proof.
  unfold init_gpgme. destruct (x_have x); cbv beta iota; [left; auto|]. destruct (w_engine w); cbn [negb]; [|right; right; repeat split; discriminate].
  destruct (w_new w); cbn [negb]; [right; left; auto|right; right; repeat split; discriminate].
Qed.

Section inv.
Variable H : hashes.

(** A name and key of the context against the calls. *)
Definition slot (e : engine) (secret : bool) (was : option (world * bytes)) (k : option key) : Prop :=
  match was with
  | None => True
  | Some (w, n) => exists k', k = Some k' /\ found w e n secret k'
  end.
Definition name_of (o : option (world * bytes)) : option bytes := match o with Some (_, n) => Some n | None => None end.

Record inv (p : past) (x : gx) : Prop := mkInv {
  i_set : settings p = mkEngine (match x_exe x with Some f => f | None => GPG_EXE end) (x_home x);
  i_rcpt : x_rcpt x = name_of (recipient p);
  i_sgn : x_sgn x = name_of (signer p);
  i_new : x_have x = false -> x_ptr x = GNull /\ recipient p = None /\ signer p = None;
  i_live : forall e, x_ptr x = GLive e -> once p e /\ slot e false (recipient p) (x_rkey x) /\ slot e true (signer p) (x_skey x);
  i_verify : x_verify x = verifying p;
  i_ignore : x_ignore x = ignoring p }.

Lemma once_more a p e : once p e -> once (a :: p) e.
Proof. intros (p1 & p2 & -> & E & R). exists (a :: p1), p2. now repeat split; try apply R. Qed.

Lemma inv_fresh c : inv [] (fresh c).
Proof. split; try reflexivity; cbn; [auto|discriminate]. Qed.

(** Calls that leave the spec's view alone and change at most the rest of the context. *)
Definition dull (k : call) : Prop := match k with Encrypt _ _ | Decrypt _ _ | GetFpr | GetId | Other _ => True | _ => False end.
Lemma dull_views k w a p : dull k ->
  settings ((w, k, a) :: p) = settings p /\ recipient ((w, k, a) :: p) = recipient p /\ signer ((w, k, a) :: p) = signer p /\
  verifying ((w, k, a) :: p) = verifying p /\ ignoring ((w, k, a) :: p) = ignoring p.
Proof. intros D. destruct a as [e b]. destruct k; try destruct D; cbn [settings recipient signer verifying ignoring]; repeat split. Qed.

(** The changes an encryption or a decryption makes to the part of GnuPG: the handle is
    made, and it may go, never coming back; a signature may be stored. *)
Definition after (x y : gx) : Prop :=
  x_exe y = x_exe x /\ x_home y = x_home x /\ x_rcpt y = x_rcpt x /\ x_sgn y = x_sgn x /\
  x_rkey y = x_rkey x /\ x_skey y = x_skey x /\ x_verify y = x_verify x /\ x_ignore y = x_ignore x /\
  (x_have x = true -> x_have y = true /\ (x_ptr y = x_ptr x \/ x_ptr y = GNull)) /\
  (x_have x = false -> (x_have y = false /\ x_ptr y = x_ptr x) \/
     (x_have y = true /\ (x_ptr y = GNull \/ x_ptr y = GLive (mkEngine (match x_exe x with Some p => p | None => GPG_EXE end) (x_home x))))).

Lemma after_refl x : after x x.
Proof. repeat split; auto. Qed.
Lemma after_c c x : after x (put_c c x).
Proof. destruct x; repeat split; auto. Qed.
Lemma after_sig c x : after x (put_sig c x).
Proof. destruct x; repeat split; auto. Qed.
Lemma after_trans x y z : after x y -> after y z -> after x z.
Proof.
  intros (A1 & A2 & A3 & A4 & A5 & A6 & A7 & A8 & A9 & A10) (B1 & B2 & B3 & B4 & B5 & B6 & B7 & B8 & B9 & B10).
  repeat split; try congruence.
  - destruct (A9 H0) as [Y _]. now apply B9.
  - destruct (A9 H0) as [Y P]. destruct (B9 Y) as [_ [Q|Q]]; [rewrite Q; exact P|now right].
  - intros N. destruct (A10 N) as [[Y P]|[Y P]].
    + destruct (B10 Y) as [[Z Q]|[Z Q]]; [left; split; congruence|right; split; [exact Z|]].
      rewrite A1, A2 in Q. exact Q.
    + right. destruct (B9 Y) as [Z [Q|Q]]; split; auto. rewrite Q. exact P.
Qed.
Lemma after_init w x e y : init_gpgme w x = (e, y) -> after x y.
Proof.
  intros E. pose proof (init_cases w x) as C. rewrite E in C. destruct C as [(_ & _ & ->)|[(_ & N & ->)|(_ & _ & ->)]]; [apply after_refl| |apply after_refl].
  destruct x; cbn in *; subst. repeat split; cbn; try discriminate. intros _. right. auto.
Qed.
Lemma after_drop x y : x_have x = true -> drop x = Done y -> after x y.
Proof.
  unfold drop. intros Hv D. destruct x; cbn in *; subst. destruct x_ptr; inversion D; subst; repeat split; cbn; auto; discriminate.
Qed.
Lemma init_have w x y : init_gpgme w x = (success, y) -> x_have y = true.
Proof. intros E. pose proof (init_cases w x) as C. rewrite E in C. destruct C as [(_ & V & ->)|[(_ & N & ->)|(V & _)]]; [exact V|reflexivity|congruence]. Qed.

Lemma inv_after p x y w k a : inv p x -> dull k -> after x y -> inv ((w, k, a) :: p) y.
Proof.
  intros [I1 I2 I3 I4 I5 I6 I7] D (A1 & A2 & A3 & A4 & A5 & A6 & A7 & A8 & A9 & A10).
  destruct (dull_views k w a p D) as (V1 & V2 & V3 & V4 & V5). split; rewrite ?V1, ?V2, ?V3, ?V4, ?V5; try congruence; [rewrite A1, A2; exact I1| |].
  - intros N. destruct (x_have x) eqn:E; [destruct (A9 eq_refl); congruence|]. destruct (A10 eq_refl) as [[_ Q]|[Q _]]; [|congruence].
    rewrite Q. now apply I4.
  - intros e P. destruct (x_have x) eqn:E.
    + destruct (A9 eq_refl) as [_ [Q|Q]]; [|congruence]. rewrite Q in P. destruct (I5 e P) as (O & S1 & S2). rewrite A5, A6. split; [now apply once_more|auto].
    + destruct (I4 eq_refl) as (G & R & S). destruct (A10 eq_refl) as [[_ Q]|[_ [Q|Q]]]; try congruence.
      rewrite Q in P. injection P as <-. rewrite R, S. split; [|split; exact I]. apply once_more. exists [], p. now rewrite <- I1.
Qed.

Lemma after_failed g x e y : x_have x = true ->
  match drop_with g x with Done (e0, x0) => Done (e0, @None bytes, x0) | Bad t => Bad t end = Done (e, None, y) -> after x y.
Proof.
  unfold drop_with. intros Hv. destruct (drop x) as [z|] eqn:D; [|discriminate]. intros E. injection E as _ <-. now apply after_drop.
Qed.
Lemma failed_none g x o y : match drop_with g x with Done (e0, x0) => Done (e0, @None bytes, x0) | Bad t => Bad t end = Done (success, o, y) -> False.
Proof. unfold drop_with. destruct (drop x); discriminate. Qed.

Ltac into E := match type of E with
  | context [match ?b with _ => _ end] => let Q := fresh "Q" in destruct b eqn:Q; try discriminate E
  end.

(** An encryption with gpgme that is successful, and any. *)
Lemma gpgme_encrypt_ok w pw plain x out y : gpgme_encrypt w pw plain x = Done (success, Some out, y) ->
  exists e, x_ptr y = GLive e /\ init_gpgme w x = (success, y) /\
  match x_sgn y with
  | None => w_encrypt w e (x_rkey y) plain = inr out
  | Some _ => w_sign w e (x_rkey y) (x_skey y) pw plain = inr out
  end.
Proof.
  unfold gpgme_encrypt. destruct (init_gpgme w x) as [e z] eqn:E. intros R.
  destruct e as [[]|]; try discriminate R.
  destruct (w_data w); cbn [negb] in R; [|now apply failed_none in R].
  destruct (x_ptr z) as [|en|] eqn:P; [now apply failed_none in R| |discriminate R].
  destruct (w_proto w); cbn [negb] in R; [|now apply failed_none in R].
  destruct (w_data2 w); cbn [negb] in R; [|now apply failed_none in R].
  destruct (x_sgn z) eqn:SG.
  - destruct (w_signer w); [|now apply failed_none in R].
    destruct (w_sign w en _ _ _ _) as [[]|o] eqn:O; try now apply failed_none in R. injection R as <- <-. exists en. rewrite SG. auto.
  - destruct (w_encrypt w en _ _) as [[]|o] eqn:O; try now apply failed_none in R. injection R as <- <-. exists en. rewrite SG. auto.
Qed.
Lemma gpgme_encrypt_after w pw plain x e o y : gpgme_encrypt w pw plain x = Done (e, o, y) -> after x y.
Proof.
  unfold gpgme_encrypt. destruct (init_gpgme w x) as [e0 z] eqn:E. pose proof (after_init _ _ _ _ E) as A.
  assert (F : forall g, e0 = success -> match drop_with g z with Done (e0, x0) => Done (e0, @None bytes, x0) | Bad t => Bad t end = Done (e, o, y) -> after x y).
  { intros g -> R. apply (after_trans _ z); [exact A|]. apply (after_failed g) with (e := e); [eapply init_have; eauto|].
    destruct o; [|exact R]. unfold drop_with in R. destruct (drop z); discriminate R. }
  intros R. destruct e0 as [[]|]; try (injection R as _ _ <-; exact A).
  destruct (w_data w); cbn [negb] in R; [|now apply F in R].
  destruct (x_ptr z) as [|en|] eqn:P; [now apply F in R| |discriminate R].
  destruct (w_proto w); cbn [negb] in R; [|now apply F in R].
  destruct (w_data2 w); cbn [negb] in R; [|now apply F in R].
  match type of R with match ?b with _ => _ end = _ => destruct b as [[[]|]|] end; try now apply F in R. injection R as _ _ <-. exact A.
Qed.

Lemma gpg_encrypt_after w pw x e y : gpg_encrypt w pw x = Done (e, y) -> after x y.
Proof.
  unfold gpg_encrypt. cbv zeta. intros R. repeat (into R; try (injection R as _ <-; try apply after_refl)).
  all: match goal with
       | Q : gpgme_encrypt _ _ _ _ = Done _ |- _ => apply gpgme_encrypt_after in Q
       end; subst; try (exact Q).
  all: try (eapply after_trans; [eassumption|apply after_c]). all: try eassumption.
Qed.

Lemma lift_after r x e y : lift r x = Done (e, y) -> after x y.
Proof. unfold lift. destruct r as [[]|]; [|discriminate]. intros E. injection E as _ <-. apply after_c. Qed.

Lemma encrypt_after w pw salt x e y : encrypt_data H w pw salt x = Done (e, y) -> after x y.
Proof.
  unfold encrypt_data. cbv zeta. destruct (if _ : bool then _ else _) as [[e0 c1]|]; [|discriminate]. intros R.
  repeat (into R; try (injection R as _ <-; try apply after_c)); subst.
  - apply lift_after in R. eapply after_trans; [apply (after_c c1)|exact R].
  - apply gpg_encrypt_after in R. eapply after_trans; [apply (after_c c1)|exact R].
Qed.

(** Decryption. *)
Lemma process_after l x e y : process_sigs l x = (e, y) -> after x y /\ x_have y = x_have x.
Proof.
  unfold process_sigs. destruct l as [|s l]; [intros E; injection E as _ <-; split; [apply after_refl|reflexivity]|]. cbv zeta.
  intros E. repeat (into E); injection E as _ <-; (split; [apply after_sig|destruct x; reflexivity]).
Qed.
Lemma gpgme_decrypt_after w pw t x e o y : gpgme_decrypt w pw t x = Done (e, o, y) -> after x y.
Proof.
  unfold gpgme_decrypt. destruct (init_gpgme w x) as [e0 z] eqn:E. pose proof (after_init _ _ _ _ E) as A.
  assert (F : forall g, e0 = success -> match drop_with g z with Done (e0, x0) => Done (e0, @None bytes, x0) | Bad t => Bad t end = Done (e, o, y) -> after x y).
  { intros g -> R. apply (after_trans _ z); [exact A|]. apply (after_failed g) with (e := e); [eapply init_have; eauto|].
    destruct o; [|exact R]. unfold drop_with in R. destruct (drop z); discriminate R. }
  intros R. destruct e0 as [[]|]; try (injection R as _ _ <-; exact A).
  destruct (w_data w); cbn [negb] in R; [|now apply F in R].
  destruct (w_data2 w); cbn [negb] in R; [|now apply F in R].
  destruct (x_ptr z) as [|en|] eqn:P; [now apply F in R| |discriminate R].
  destruct (_ && _); [discriminate R|]. destruct (w_open _ _ _ _) as [[[pt u] sigs]|]; [|now apply F in R].
  destruct u; [now apply F in R|]. destruct (x_verify z); [|injection R as _ _ <-; exact A].
  destruct (process_sigs sigs z) as [e1 z1] eqn:PS. destruct (process_after _ _ _ _ PS) as [A1 HV].
  assert (X : after x z1) by (eapply after_trans; eauto).
  assert (D : forall e2, match drop z1 with Done x0 => Done (e2, @None bytes, x0) | Bad t => Bad t end = Done (e, o, y) -> after x y).
  { intros e2 Q. destruct (drop z1) eqn:DZ; [|discriminate]. injection Q as _ _ <-. eapply after_trans; [exact X|]. apply after_drop; [|exact DZ].
    rewrite HV. eapply init_have; eauto. }
  destruct e1 as [[]|]; try (now apply D in R). injection R as _ _ <-. exact X.
Qed.
Lemma gpg_decrypt_after w pw x e y : gpg_decrypt H w pw x = Done (e, y) -> after x y.
Proof.
  unfold gpg_decrypt. destruct (if _ : bool then _ else _) as [[e0 c1]|]; [|discriminate]. cbv zeta. intros R.
  destruct (c_crypt c1) as [t|]; [|discriminate]. destruct (b64_decode t); [|injection R as _ <-; apply after_c].
  destruct (gpgme_decrypt _ _ _ _) as [[[e1 o] z]|] eqn:G; [|discriminate]. apply gpgme_decrypt_after in G.
  assert (X : after x z) by (eapply after_trans; [apply after_c|exact G]).
  destruct e1 as [[]|], o; try (injection R as _ <-; exact X).
  destruct (negb _); [injection R as _ <-; eapply after_trans; [exact X|apply after_c]|].
  apply lift_after in R. eapply after_trans; eauto.
Qed.
Lemma decrypt_after w pw len x e y : decrypt_data H w pw len x = Done (e, y) -> after x y.
Proof.
  unfold decrypt_data. cbv zeta. intros R. repeat (into R; try (injection R as _ <-; try apply after_refl)).
  - apply gpg_decrypt_after in R. eapply after_trans; [apply after_c|exact R].
  - now apply lift_after in R.
  - now apply lift_after in R.
Qed.

(** Looking up a key. *)
Lemma get_key_cases w sg x e k y : get_gpg_key w sg x = Done (e, k, y) ->
  let n := match (if sg then x_sgn x else x_rcpt x) with Some n => n | None => [] end in
  (exists en k', e = success /\ k = Some k' /\ x_ptr y = GLive en /\ init_gpgme w x = (success, y) /\ found w en n sg k') \/
  (e <> success /\ e <> Gpg WRONG_ENCRYPTION_TYPE /\ k = None /\
   (exists e0 z, init_gpgme w x = (e0, z) /\ (y = z \/ (exists en, e0 = success /\ x_ptr z = GLive en /\ w_list w en n sg = None /\ y = put_ptr GReleased z)))).
Proof.
  unfold get_gpg_key. intros R. destruct (init_gpgme w x) as [e0 z] eqn:E in R. cbv zeta. set (n := match (if sg then x_sgn x else x_rcpt x) with Some n => n | None => [] end).
  assert (SZ : (if sg then x_sgn z else x_rcpt z) = (if sg then x_sgn x else x_rcpt x)).
  { pose proof (after_init _ _ _ _ E) as (_ & _ & A3 & A4 & _). rewrite A3, A4. reflexivity. }
  rewrite SZ in R. fold n in R.
  assert (F : forall q, q <> success -> q <> Gpg WRONG_ENCRYPTION_TYPE -> Done (q, @None key, z) = Done (e, k, y) -> 
     (e <> success /\ e <> Gpg WRONG_ENCRYPTION_TYPE /\ k = None /\
   (exists e0 z, init_gpgme w x = (e0, z) /\ (y = z \/ (exists en, e0 = success /\ x_ptr z = GLive en /\ w_list w en n sg = None /\ y = put_ptr GReleased z))))).
  { intros q N1 N2 Q. injection Q as <- <- <-. repeat split; auto. exists e0, z. auto. }
  destruct e0 as [[]|]; try (right; apply F in R; [exact R|destruct sg; discriminate|destruct sg; discriminate]).
  destruct (x_ptr z) as [|en|] eqn:P; [right; apply F in R; [exact R|destruct sg; discriminate|destruct sg; discriminate]| |discriminate R].
  destruct (w_list w en n sg) as [l|] eqn:L.
  - destruct l as [|[k1|] l]; [right; apply F in R; [exact R|destruct sg; discriminate|destruct sg; discriminate]| |right; apply F in R; [exact R|destruct sg; discriminate|destruct sg; discriminate]].
    destruct l as [|[k2|] l]; [left| right; apply F in R; [exact R|destruct sg; discriminate|destruct sg; discriminate]|left];
      injection R as <- <- <-; exists en, k1; repeat split; auto; eexists; (split; [exact L|exact I]).
  - right. injection R as <- <- <-. split; [destruct sg; discriminate|]. split; [destruct sg; discriminate|]. split; [reflexivity|].
    exists success, z. split; [exact E|]. right. exists en. auto.
Qed.

(** The state of the handle after [init_gpgme], whatever the names in the context. *)
Lemma init_live p x x' w e z : inv p x -> x_have x' = x_have x -> x_ptr x' = x_ptr x -> x_exe x' = x_exe x -> x_home x' = x_home x ->
  init_gpgme w x' = (e, z) ->
  (x_have z = false -> x_have x = false /\ x_ptr z = GNull /\ e <> success) /\
  (forall en, x_ptr z = GLive en -> once p en /\ slot en false (recipient p) (x_rkey x) /\ slot en true (signer p) (x_skey x)).
Proof.
  intros [I1 I2 I3 I4 I5 I6 I7] V P X Y E. pose proof (init_cases w x') as C. rewrite E in C.
  destruct C as [(-> & N & ->)|[(-> & N & ->)|(NE & N & ->)]].
  - split; [congruence|]. intros en Q. apply I5. congruence.
  - split; [discriminate|]. cbn [x_ptr put_have put_ptr]. intros en Q. injection Q as <-. rewrite X, Y. rewrite V in N. destruct (I4 N) as (_ & -> & ->).
    split; [|split; exact I]. destruct (I4 N) as (_ & R1 & R2). exists [], p. rewrite <- I1. auto.
  - rewrite V in N. destruct (I4 N) as (Q & -> & ->). split; [intros _; repeat split; auto; congruence|]. intros en. rewrite P, Q. discriminate.
Qed.

Lemma named_success w n b : named success w n b = Some (w, n). Proof. reflexivity. Qed.
Lemma named_failed e w n b : e <> success -> e <> Gpg WRONG_ENCRYPTION_TYPE -> named e w n b = None.
Proof. destruct e as [[]|[]]; try reflexivity; intros A B; exfalso; now (apply A || apply B). Qed.

Lemma inv_recipient p x w n e y : inv p x -> set_gpg_recipient w n x = Done (e, y) -> inv ((w, SetRecipient n, (e, None)) :: p) y.
Proof.
  intros IV. unfold set_gpg_recipient. destruct (negb _).
  { intros R. injection R as <- <-. destruct IV as [I1 I2 I3 I4 I5 I6 I7]. split; cbn [settings recipient signer verifying ignoring named]; auto.
    intros en P. destruct (I5 en P). split; [now apply once_more|assumption]. }
  destruct (get_gpg_key _ _ _) as [[[e1 k] z]|] eqn:G; [|discriminate]. apply get_key_cases in G. cbn [x_rcpt x_sgn put_rcpt] in G.
  pose proof IV as [I1 I2 I3 I4 I5 I6 I7].
  destruct G as [(en & k1 & -> & -> & P & E & F)|(N1 & N2 & -> & e0 & z0 & E & Z)].
  - intros R. injection R as <- <-. destruct (init_live _ _ (put_rcpt (Some n) x) _ _ _ IV eq_refl eq_refl eq_refl eq_refl E) as [J1 J2].
    pose proof (after_init _ _ _ _ E) as (A1 & A2 & A3 & A4 & A5 & A6 & A7 & A8 & _). cbn in A1, A2, A3, A4, A5, A6, A7, A8.
    split; cbn [settings recipient signer verifying ignoring named success x_exe x_home x_rcpt x_sgn x_have x_ptr x_rkey x_skey x_verify x_ignore put_c put_rkey name_of]; try congruence.
    + change (settings p = mkEngine match x_exe z with Some f => f | None => GPG_EXE end (x_home z)). now rewrite A1, A2.
    + pose proof (init_have _ _ _ E). congruence.
    + intros en' Q. destruct (J2 en' Q) as (O & S1 & S2). split; [now apply once_more|]. rewrite P in Q. injection Q as <-. split; [exists k1; auto|]. now rewrite A6.
  - intros R. assert (R2 : Done (e1, put_rcpt None z) = Done (e, y)) by (destruct e1 as [[]|]; try exact R; exfalso; now apply N1). clear R. injection R2 as <- <-.
    destruct (init_live _ _ (put_rcpt (Some n) x) _ _ _ IV eq_refl eq_refl eq_refl eq_refl E) as [J1 J2].
    pose proof (after_init _ _ _ _ E) as (A1 & A2 & A3 & A4 & A5 & A6 & A7 & A8 & _). cbn in A1, A2, A3, A4, A5, A6, A7, A8.
    assert (NM : named e1 w n (recipient p) = None) by now apply named_failed.
    split; cbn [settings recipient signer verifying ignoring]; rewrite ?NM.
    + destruct Z as [->|(en & _ & _ & _ & ->)]; cbn; rewrite A1, A2; exact I1.
    + reflexivity.
    + destruct Z as [->|(en & _ & _ & _ & ->)]; cbn; congruence.
    + intros HV. destruct Z as [->|(en & S0 & P0 & _ & ->)].
      * destruct (J1 HV) as (HX & GN & _). destruct (I4 HX) as (_ & _ & ->). auto.
      * exfalso. subst e0. pose proof (init_have _ _ _ E). cbn in HV. congruence.
    + intros en Q. destruct Z as [->|(en0 & _ & _ & _ & ->)]; [|discriminate Q]. destruct (J2 en Q) as (O & S1 & S2).
      split; [now apply once_more|]. split; [exact I|]. cbn. now rewrite A6.
    + destruct Z as [->|(en & _ & _ & _ & ->)]; cbn; congruence.
    + destruct Z as [->|(en & _ & _ & _ & ->)]; cbn; congruence.
Qed.
Lemma inv_signer p x w n e y : inv p x -> set_gpg_signer w n x = Done (e, y) -> inv ((w, SetSigner n, (e, None)) :: p) y.
Proof.
  intros IV. unfold set_gpg_signer. destruct (negb _).
  { intros R. injection R as <- <-. destruct IV as [I1 I2 I3 I4 I5 I6 I7]. split; cbn [settings recipient signer verifying ignoring named]; auto.
    intros en P. destruct (I5 en P). split; [now apply once_more|assumption]. }
  destruct (get_gpg_key _ _ _) as [[[e1 k] z]|] eqn:G; [|discriminate]. apply get_key_cases in G. cbn [x_rcpt x_sgn put_sgn] in G.
  pose proof IV as [I1 I2 I3 I4 I5 I6 I7].
  destruct G as [(en & k1 & -> & -> & P & E & F)|(N1 & N2 & -> & e0 & z0 & E & Z)].
  - intros R. injection R as <- <-. destruct (init_live _ _ (put_sgn (Some n) x) _ _ _ IV eq_refl eq_refl eq_refl eq_refl E) as [J1 J2].
    pose proof (after_init _ _ _ _ E) as (A1 & A2 & A3 & A4 & A5 & A6 & A7 & A8 & _). cbn in A1, A2, A3, A4, A5, A6, A7, A8.
    split; cbn [settings recipient signer verifying ignoring named success x_exe x_home x_rcpt x_sgn x_have x_ptr x_rkey x_skey x_verify x_ignore put_c put_skey name_of]; try congruence.
    + change (settings p = mkEngine match x_exe z with Some f => f | None => GPG_EXE end (x_home z)). now rewrite A1, A2.
    + pose proof (init_have _ _ _ E). congruence.
    + intros en' Q. destruct (J2 en' Q) as (O & S1 & S2). split; [now apply once_more|]. rewrite P in Q. injection Q as <-. split; [now rewrite A5|exists k1; auto].
  - intros R. assert (R2 : Done (e1, put_sgn None z) = Done (e, y)) by (destruct e1 as [[]|]; try exact R; exfalso; now apply N1). clear R. injection R2 as <- <-.
    destruct (init_live _ _ (put_sgn (Some n) x) _ _ _ IV eq_refl eq_refl eq_refl eq_refl E) as [J1 J2].
    pose proof (after_init _ _ _ _ E) as (A1 & A2 & A3 & A4 & A5 & A6 & A7 & A8 & _). cbn in A1, A2, A3, A4, A5, A6, A7, A8.
    assert (NM : named e1 w n (signer p) = None) by now apply named_failed.
    split; cbn [settings recipient signer verifying ignoring]; rewrite ?NM.
    + destruct Z as [->|(en & _ & _ & _ & ->)]; cbn; rewrite A1, A2; exact I1.
    + destruct Z as [->|(en & _ & _ & _ & ->)]; cbn; congruence.
    + reflexivity.
    + intros HV. destruct Z as [->|(en & S0 & P0 & _ & ->)].
      * destruct (J1 HV) as (HX & GN & _). destruct (I4 HX) as (_ & -> & _). auto.
      * exfalso. subst e0. pose proof (init_have _ _ _ E). cbn in HV. congruence.
    + intros en Q. destruct Z as [->|(en0 & _ & _ & _ & ->)]; [|discriminate Q]. destruct (J2 en Q) as (O & S1 & S2).
      split; [now apply once_more|]. split; [|exact I]. cbn. now rewrite A5.
    + destruct Z as [->|(en & _ & _ & _ & ->)]; cbn; congruence.
    + destruct Z as [->|(en & _ & _ & _ & ->)]; cbn; congruence.
Qed.

Lemma inv_step p x w k a y : inv p x -> step H w k x = Done (a, y) -> inv ((w, k, a) :: p) y.
Proof.
  intros IV R. destruct k; cbn [step] in R.
  - unfold plainly, set_gpg_exe in R. destruct IV as [I1 I2 I3 I4 I5 I6 I7].
    destruct (w_isreg w p0); injection R as <- <-; split; cbn [settings recipient signer verifying ignoring]; auto;
      try (intros en P; destruct (I5 en P); split; [now apply once_more|assumption]).
    rewrite I1. reflexivity.
  - unfold plainly, set_gpg_home_dir in R. destruct IV as [I1 I2 I3 I4 I5 I6 I7].
    destruct (w_isdir w p0); injection R as <- <-; split; cbn [settings recipient signer verifying ignoring]; auto;
      try (intros en P; destruct (I5 en P); split; [now apply once_more|assumption]).
    rewrite I1. reflexivity.
  - destruct (set_gpg_recipient w n x) as [[e z]|] eqn:E; [|discriminate]. injection R as <- <-. eapply inv_recipient; eauto.
  - destruct (set_gpg_signer w n x) as [[e z]|] eqn:E; [|discriminate]. injection R as <- <-. eapply inv_signer; eauto.
  - injection R as <- <-. destruct IV as [I1 I2 I3 I4 I5 I6 I7]. split; cbn [settings recipient signer verifying ignoring]; auto.
    intros en P; destruct (I5 en P); split; [now apply once_more|assumption].
  - injection R as <- <-. destruct IV as [I1 I2 I3 I4 I5 I6 I7]. split; cbn [settings recipient signer verifying ignoring]; auto.
    intros en P; destruct (I5 en P); split; [now apply once_more|assumption].
  - destruct (encrypt_data H w pw salt x) as [[e z]|] eqn:E; [|discriminate]. injection R as <- <-. eapply inv_after; [eassumption|exact I|]. eapply encrypt_after; eauto.
  - destruct (decrypt_data H w pw len x) as [[e z]|] eqn:E; [|discriminate]. injection R as <- <-. eapply inv_after; [eassumption|exact I|]. eapply decrypt_after; eauto.
  - unfold reading in R. destruct (get_gpg_signature_fpr x); [|discriminate]. injection R as <- <-. eapply inv_after; [eassumption|exact I|apply after_refl].
  - unfold reading in R. destruct (get_gpg_signature_id x); [|discriminate]. injection R as <- <-. eapply inv_after; [eassumption|exact I|apply after_refl].
  - injection R as <- <-. eapply inv_after; [eassumption|exact I|apply after_c].
Qed.
Lemma inv_history c p x : history H (fresh c) p x -> inv p x.
Proof. induction 1; [apply inv_fresh|eapply inv_step; eauto]. Qed.

End inv.
