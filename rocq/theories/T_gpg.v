(** Property theorems: GnuPG through the library, and in the daemon. *)
From Verif Require Import Bytes M_base64 M_util M_message M_codec M_cipher M_ctx P_bytes M_access M_incoming
  T_codec T_ctx M_gpg S_gpg P_gpg P_gpg2 P_gpg3.
From Coq Require Import Init.Byte List ZArith Bool Lia.
Import ListNotations.
Open Scope Z_scope.

(** ** A key ring used in the examples *)
(** A text of gpg begins with a packet that has the tag [tag] and says for which key it is;
    then one character says whether the text is signed.  The directory /b has another key for the name bob than the others. *)
Definition wrap (tag : byte) (signed : bool) (k : option key) (plain : bytes) : bytes :=
  tag :: (if Byte.eqb tag x85 then x00 else x8c) :: firstn 300 (match k with Some k => k | None => [] end ++ repeat x07 300) ++ (if signed then "s"%byte else "n"%byte) :: plain.
Definition good : sig := mkGsig 3 0 4 (Some ($ "0123456789ABCDEF0123456789ABCDEF01234567")).
Definition ring (e : engine) (n : bytes) (secret : bool) : option (list (option key)) :=
  if bseq n ($ "bob") then Some [Some (match en_home e with Some d => if bseq d ($ "/b") then $ "KEYB" else $ "KEYA" | None => $ "KEYA" end)]
  else if bseq n ($ "alice") then Some [Some ($ "KEYALICE")]
  else if bseq n ($ "b") then Some [Some ($ "KEYA"); None]
  else if bseq n ($ "gone") then None
  else Some [].
Definition unwrap (tag : byte) (t : bytes) : option (bytes * bool * list sig) :=
  match t with
  | a :: t => if Byte.eqb a tag then match skipn 301 t with f :: pt => Some (pt, false, if Byte.eqb f "s" then [good] else []) | [] => None end else None
  | _ => None
  end.
Definition w_tag (tag : byte) : world := mkW true true true true true true ring
  (fun _ k pl => inr (wrap tag false k pl)) (fun _ k _ _ pl => inr (wrap tag true k pl))
  (fun _ _ => true) (fun _ _ => unwrap tag) (fun _ => true) (fun _ => true).
Definition w0 : world := w_tag x85.
(** The same, but the agent is not there when a text is opened or signed. *)
Definition w_down : world := mkW true true true true true true ring
  (fun _ _ pl => inl false) (fun _ _ _ _ pl => inl true) (fun _ _ => true) (fun _ _ _ => None) (fun _ => true) (fun _ => true).

Definition c0 : ctx := Eval vm_compute in match play setup with
  | Ok (Live c) => set_c_mode FKO_ENC_MODE_ASYMMETRIC (set_c_etype FKO_ENCRYPTION_GPG c) | _ => empty_ctx end.

Fixpoint run (l : list (world * call)) (p : past) (x : gx) : option (past * gx) :=
  match l with
  | [] => Some (p, x)
  | (w, k) :: l => match step toy w k x with Done (a, x) => run l ((w, k, a) :: p) x | Bad _ => None end
  end.
Lemma run_history l : forall x0 p x p' x', history toy x0 p x -> run l p x = Some (p', x') -> history toy x0 p' x'.
Proof.
  induction l as [|[w k] l IH]; intros x0 p x p' x' Hi R; cbn [run] in R; [injection R as <- <-; exact Hi|].
  destruct (step toy w k x) as [[a y]|] eqn:E; [|discriminate]. eapply IH; [|exact R]. eapply H_call; eauto.
Qed.
Definition from (c : ctx) (l : list (world * call)) : past * gx :=
  match run l [] (fresh c) with Some r => r | None => ([], fresh c) end.
Lemma from_history c l : match run l [] (fresh c) with Some _ => true | None => false end = true -> history toy (fresh c) (fst (from c l)) (snd (from c l)).
Proof.
  unfold from. destruct (run l [] (fresh c)) as [[p x]|] eqn:R; [|discriminate]. intros _. eapply run_history; [constructor|exact R].
Qed.
Definition codes (p : past) : list gerr := map (fun q => fst (snd q)) (rev p).
Ltac ran c l := apply (from_history c l); vm_compute; reflexivity.

(** ** C92 *)
(** What is sent: if the call to encrypt succeeds on a context for GnuPG, the text of the packet
    is the answer of gpgme for the encoded message and its digest, encrypted for the key
    found for the recipient named last.  It is signed with the key found for the signer
    named last, if one was named.  Both keys are of the program and key ring that were set
    at some moment of the past. *)
Theorem C92_encrypt_partial : forall H c p x w pw salt b y,
  history H (fresh c) p x -> c_etype (x_c x) = FKO_ENCRYPTION_GPG ->
  step H w (Encrypt pw salt) x = Done ((success, b), y) ->
  exists e wr n k enc d out,
    once p e /\ recipient p = Some (wr, n) /\ found wr e n false k /\
    c_enc (x_c y) = Some enc /\ c_digest (x_c y) = Some d /\ c_crypt (x_c y) = Some (strip_b64_eq (b64_encode out)) /\
    match signer p with
    | None => w_encrypt w e (Some k) (cstr enc ++ ":"%byte :: d) = inr out
    | Some (ws, m) => exists ks, found ws e m true ks /\
        w_sign w e (Some k) (Some ks) (match pw with Some q => q | None => [] end) (cstr enc ++ ":"%byte :: d) = inr out
    end.
Proof.
  intros H c p x w pw salt b y Hi ET R. cbn [step] in R. unfold plainly in R.
  destruct (encrypt_data H w pw salt x) as [[e z]|] eqn:E; [|discriminate]. injection R as -> _ <-.
  eapply encrypt_spec; eauto. eapply inv_history; eauto.
Qed.
Print Assumptions C92_encrypt_partial.
(** If no listing breaks off, the key is the only one that the name has. *)
Theorem C92_unique : forall w e n secret k, whole w -> found w e n secret k -> w_list w e n secret = Some [Some k].
Proof.
  intros w e n s k W (l & E & L). destruct l as [|[k2|] l]; [exact E|contradiction|]. exfalso. apply (W _ _ _ _ E). right. left. reflexivity.
Qed.
Print Assumptions C92_unique.

(** What is accepted: a text is opened in a key ring that was set; unless the caller turned
    verification off there is a signature, it is the one that the library shows, and
    unless the caller ignores errors it is right and its key is fully trusted. *)
Theorem C92_decrypt : forall H c p x w pw len b y,
  history H (fresh c) p x ->
  encryption_type (c_crypt (x_c x)) = FKO_ENCRYPTION_GPG -> c_mode (x_c x) = FKO_ENC_MODE_ASYMMETRIC ->
  step H w (Decrypt pw len) x = Done ((success, b), y) ->
  exists e t cipher pt sigs c',
    once p e /\ c_crypt c' = Some t /\ b64_decode t = Some cipher /\
    w_open w e (match pw with Some q => q | None => [] end) cipher = Some (pt, false, sigs) /\
    c_enc c' = Some pt /\ decode_spa_data H c' = Ok (FKO_SUCCESS, x_c y) /\
    (verifying p = true -> exists s l, sigs = s :: l /\ (forall w', step H w' GetFpr y = Done ((success, sg_print s), y)) /\
       (ignoring p = false -> trusted s)).
Proof.
  intros H c p x w pw len b y Hi ET M R. cbn [step] in R. unfold plainly in R.
  destruct (decrypt_data H w pw len x) as [[e z]|] eqn:E; [|discriminate]. injection R as -> _ <-.
  destruct (decrypt_spec H p x w pw len z (inv_history _ _ _ _ Hi) ET M E) as (e & t & ci & pt & sigs & c' & O & CT & B & OP & CE & D & V).
  exists e, t, ci, pt, sigs, c'. repeat (split; [assumption|]). intros VP. destruct (V VP) as (s & l & -> & G & T). exists s, l. split; [reflexivity|].
  split; [|exact T]. intros w'. cbn [step]. unfold reading. now rewrite G.
Qed.
Print Assumptions C92_decrypt.

(** A message signed by alice goes from a sender to a receiver; an unsigned one is not
    accepted, and it is when the receiver turns verification off. *)
Definition sent (l : list (world * call)) : bytes :=
  match fko_get_spa_data (Live (x_c (snd (from c0 l)))) with Ok (FKO_SUCCESS, Some t) => t | _ => [] end.
Definition pw1 : option bytes := Some ($ "pw").
Definition signing : list (world * call) := [(w0, SetHome ($ "/a")); (w0, SetRecipient ($ "bob")); (w0, SetSigner ($ "alice")); (w0, Encrypt pw1 [])].
Definition plainly_sent : list (world * call) := [(w0, SetRecipient ($ "bob")); (w0, Encrypt None [])].
Definition pkt_signed : bytes := Eval vm_compute in sent signing.
Definition pkt_plain : bytes := Eval vm_compute in sent plainly_sent.
Definition got (msg : bytes) : ctx := match new_with_data toy w0 msg None 7 None 0 with Done (_, Some x) => x_c x | _ => empty_ctx end.
Definition seen (x : gx) : option bytes * Z := (c_msg (x_c x), c_timeout (x_c x)).
Example C92_ex :
  codes (fst (from c0 signing)) = [success; success; success; success] /\ zlen pkt_signed >= 400 /\ zlen pkt_plain >= 400 /\
  (let (p, x) := from (got pkt_signed) [(w0, Decrypt pw1 0); (w0, GetId)] in
   codes p = [success; success] /\ seen x = (Some ($ "1.2.3.4,tcp/22"), 60) /\ map (fun q => snd (snd q)) p = [Some ($ "01234567"); None]) /\
  codes (fst (from (got pkt_plain) [(w0, Decrypt pw1 0)])) = [Gpg NO_SIGNATURE] /\
  (let (p, x) := from (got pkt_plain) [(w0, SetVerify 0); (w0, Decrypt pw1 0)] in
   codes p = [success; success] /\ seen x = (Some ($ "1.2.3.4,tcp/22"), 60)).
Proof. vm_compute. repeat split; congruence. Qed.
Example C92_hyp_ex : exists p x y b, history toy (fresh c0) p x /\ c_etype (x_c x) = FKO_ENCRYPTION_GPG /\
  step toy w0 (Encrypt pw1 []) x = Done ((success, b), y) /\ recipient p <> None /\ signer p <> None.
Proof.
  pose (l := firstn 3 signing). exists (fst (from c0 l)), (snd (from c0 l)). do 2 eexists. split; [ran c0 l|].
  split; [vm_compute; reflexivity|]. split; [vm_compute; reflexivity|]. split; intros E; apply (f_equal (fun o => match o with Some _ => true | None => false end)) in E; vm_compute in E; discriminate E.
Qed.
Example C92_hyp2_ex : exists x y b, history toy (fresh (got pkt_signed)) [] x /\
  encryption_type (c_crypt (x_c x)) = FKO_ENCRYPTION_GPG /\ c_mode (x_c x) = FKO_ENC_MODE_ASYMMETRIC /\
  step toy w0 (Decrypt pw1 0) x = Done ((success, b), y) /\ whole (mkW true true true true true true (fun _ _ _ => Some [Some ($ "K")]) (w_encrypt w0) (w_sign w0) (w_asks w0) (w_open w0) (w_isreg w0) (w_isdir w0)).
Proof.
  exists (fresh (got pkt_signed)). do 2 eexists. split; [constructor|]. split; [vm_compute; reflexivity|]. split; [vm_compute; reflexivity|].
  split; [vm_compute; reflexivity|]. intros e n s l E. cbn in E. injection E as <-. intros [Q|[]]. discriminate Q.
Qed.

(** *** No crash *)
(** As long as every listing of keys starts, no call uses a handle that was released, and
    neither does the destruction of the context; the length of a NULL passphrase is taken
    only where the caller passes NULL to the call that decrypts. *)
Theorem C92_safe_partial : forall H c p x,
  history H (fresh c) p x -> Forall (fun q => lists (fst (fst q))) p ->
  (forall w k, lists w -> step H w k x <> Bad Stale) /\ destroy x = Done tt /\
  (forall w k, step H w k x = Bad NoPass -> exists len, k = Decrypt None len).
Proof.
  intros H c p x Hi L.
  assert (K : kept x).
  { clear - Hi L. induction Hi as [|p x w k a y Hi IH R]; [discriminate|]. inversion L as [|? ? L1 L2]; subst. pose proof (kept_step H w k x L1 (IH L2)) as T.
    rewrite R in T. exact T. }
  split; [|split].
  - intros w k LW. pose proof (kept_step H w k x LW K) as T. destruct (step H w k x); [discriminate|]. intros E. injection E as ->. now apply T.
  - unfold destroy, kept in *. destruct (x_ptr x); try reflexivity. now contradiction K.
  - intros w k. apply nopass_step.
Qed.
Print Assumptions C92_safe_partial.
Example C92_safe_ex : exists p x, history toy (fresh c0) p x /\ zlen p = 4 /\ Forall (fun q => lists (fst (fst q))) p.
Proof.
  pose (w1 := mkW true true true true true true (fun _ n _ => Some (if bseq n ($ "bob") then [Some ($ "K")] else [])) (w_encrypt w0) (w_sign w0) (w_asks w0) (w_open w_down) (w_isreg w0) (w_isdir w0)).
  pose (l := [(w1, SetRecipient ($ "bob")); (w1, SetSigner ($ "carol")); (w1, Encrypt None []); (w1, Decrypt pw1 0)]).
  exists (fst (from c0 l)), (snd (from c0 l)). split; [ran c0 l|]. split; [vm_compute; reflexivity|].
  assert (LW : lists w1) by (intros e n s; discriminate).
  assert (Q : map (fun q => fst (fst q)) (fst (from c0 l)) = repeat w1 4) by (vm_compute; reflexivity).
  apply Forall_map with (f := fun q => fst (fst q)) (P := lists). rewrite Q. repeat constructor; exact LW.
Qed.

(** A listing of keys that fails to start releases the handle and leaves the pointer to it in
    the context.  The next call that looks for a key, and the destruction of the context,
    use the released handle. *)
Theorem C92_stale_refuted : exists p x, history toy (fresh c0) p x /\ codes p = [Gpg RECIPIENT_KEYLIST_START] /\
  destroy x = Bad Stale /\ step toy w0 (SetRecipient ($ "bob")) x = Bad Stale /\ step toy w0 (SetSigner ($ "alice")) x = Bad Stale.
Proof.
  pose (l := [(w0, SetRecipient ($ "gone"))]). exists (fst (from c0 l)), (snd (from c0 l)). split; [ran c0 l|]. vm_compute. repeat split.
Qed.
Print Assumptions C92_stale_refuted.
(** A message that asks for a passphrase crashes a caller that has none: the length of the
    NULL pointer is taken.  The sender decides about that, not the caller. *)
Theorem C92_pass_refuted : exists x, history toy (fresh (got pkt_signed)) [] x /\ step toy w0 (Decrypt None 0) x = Bad NoPass.
Proof. exists (fresh (got pkt_signed)). split; [constructor|]. vm_compute. reflexivity. Qed.
Print Assumptions C92_pass_refuted.

(** *** After a failure *)
(** A call to encrypt or to decrypt that fails in gpgme is the last one that the context can
    be used for: every later call that needs GnuPG fails as well, whatever gpgme could do
    by then. *)
Theorem C92_retry_refuted : forall H c p x w k g b,
  history H (fresh c) p x -> In (w, k, (Gpg g, b)) p -> runs k -> gave_up g ->
  forall w' k' e' b' y, asks (x_c x) k' -> step H w' k' x = Done ((e', b'), y) -> e' <> success.
Proof.
  intros H c p x w k g b Hi IN RK GU w' k' e' b' y A R. eapply lost_asks; [|exact A|exact R]. eapply lost_history; eauto.
Qed.
Print Assumptions C92_retry_refuted.
Example C92_retry_ex : exists p x, history toy (fresh c0) p x /\ In (w_down, Encrypt pw1 [], (Gpg BAD_PASSPHRASE, None)) p /\ gave_up BAD_PASSPHRASE /\
  codes p = [success; success; Gpg BAD_PASSPHRASE; Gpg SET_PROTOCOL; Gpg SET_PROTOCOL; Gpg RECIPIENT_KEYLIST_START].
Proof.
  pose (l := firstn 3 signing ++ [(w_down, Encrypt pw1 []); (w0, Encrypt pw1 []); (w0, Encrypt pw1 []); (w0, SetRecipient ($ "bob"))]).
  pose (l' := tl l).
  exists (fst (from c0 l')), (snd (from c0 l')). split; [ran c0 l'|]. split; [apply nth_error_In with (n := 3%nat); vm_compute; reflexivity|]. split; [cbn; tauto|]. vm_compute. reflexivity.
Qed.

(** *** The key that is used *)
Definition plain_of (x : gx) : bytes :=
  match c_enc (x_c x), c_digest (x_c x) with Some e, Some d => cstr e ++ ":"%byte :: d | _, _ => [] end.
(** The program and the directory count only if they are set before the first call that needs
    GnuPG.  Here the caller sets the directory /b and names the recipient again: both calls
    succeed, and the message goes to the key of /a. *)
Theorem C92_home_refuted : exists p x y b, history toy (fresh c0) p x /\ en_home (settings p) = Some ($ "/b") /\
  recipient p = Some (w0, $ "bob") /\ codes p = [success; success; success; success] /\
  w_list w0 (settings p) ($ "bob") false = Some [Some ($ "KEYB")] /\
  step toy w0 (Encrypt None []) x = Done ((success, b), y) /\
  c_crypt (x_c y) = Some (strip_b64_eq (b64_encode (wrap x85 false (Some ($ "KEYA")) (plain_of y)))).
Proof.
  pose (l := [(w0, SetHome ($ "/a")); (w0, SetRecipient ($ "bob")); (w0, SetHome ($ "/b")); (w0, SetRecipient ($ "bob"))]).
  exists (fst (from c0 l)), (snd (from c0 l)). do 2 eexists. split; [ran c0 l|].
  do 5 (split; [vm_compute; reflexivity|]). vm_compute. reflexivity.
Qed.
Print Assumptions C92_home_refuted.
(** A listing that breaks off with an error after the first key counts as one with a single
    key: the name may have more. *)
Theorem C92_ambiguous_refuted : exists p x, history toy (fresh c0) p x /\ codes p = [success] /\
  recipient p = Some (w0, $ "b") /\ (forall e, w_list w0 e ($ "b") false = Some [Some ($ "KEYA"); None]).
Proof.
  pose (l := [(w0, SetRecipient ($ "b"))]). exists (fst (from c0 l)), (snd (from c0 l)). split; [ran c0 l|]. vm_compute. repeat split.
Qed.
Print Assumptions C92_ambiguous_refuted.
(** The two letters hQ are cut off from the packet and put back by the receiver, but gpg does
    not begin every text with the bytes they stand for: with a recipient whose key has 1024
    bits the text begins with hI.  gpg could open the text that it made, and not the one
    that the receiver gets. *)
Theorem C92_prefix_refuted : exists p x t cipher pkt, history toy (fresh c0) p x /\ codes p = [success; success; success] /\
  c_crypt (x_c x) = Some ($ "hI" ++ t) /\ b64_decode ($ "hI" ++ t) = Some cipher /\
  (forall e pw, w_open (w_tag x84) e pw cipher = Some (plain_of x, false, [good])) /\
  fko_get_spa_data (Live (x_c x)) = Ok (FKO_SUCCESS, Some pkt) /\
  codes (fst (from (got pkt) [(w_tag x84, Decrypt pw1 0)])) = [Gpg DECRYPT_FAILED].
Proof.
  pose (l := [(w_tag x84, SetRecipient ($ "bob")); (w_tag x84, SetSigner ($ "alice")); (w_tag x84, Encrypt None [])]).
  exists (fst (from c0 l)), (snd (from c0 l)), (zdrop 2 (match c_crypt (x_c (snd (from c0 l))) with Some t => t | None => [] end)).
  do 2 eexists. split; [ran c0 l|].
  do 3 (split; [vm_compute; reflexivity|]). split; [intros e pw; vm_compute; reflexivity|]. split; [vm_compute; reflexivity|]. vm_compute. reflexivity.
Qed.
Print Assumptions C92_prefix_refuted.

(** *** Signatures and the constructor *)
(** fko_new_with_data with a key to decrypt with does not look at signatures, although a
    context has verification on from the start: a message without a signature, or with a bad
    one, has the same result as one that is signed. *)
Theorem C92_constructor_refuted : forall H w w' msg k mode hk ht, same_but_signatures w w' ->
  new_with_data H w msg (Some k) mode hk ht = new_with_data H w' msg (Some k) mode hk ht.
Proof. exact new_same. Qed.
Print Assumptions C92_constructor_refuted.
(** Here is such a message: it is accepted by the constructor, and the call made by hand on a
    context without a key refuses it. *)
Theorem C92_unsigned_refuted : exists x x', new_with_data toy w0 pkt_plain (Some ($ "pw")) 7 None 0 = Done (success, Some x) /\
  seen x = (Some ($ "1.2.3.4,tcp/22"), 60) /\ x_verify x = true /\
  new_with_data toy w0 pkt_plain None 7 None 0 = Done (success, Some x') /\ x_verify x' = true /\
  (exists y, step toy w0 (Decrypt pw1 0) x' = Done ((Gpg NO_SIGNATURE, None), y)).
Proof. do 2 eexists. split; [vm_compute; reflexivity|]. split; [reflexivity|]. split; [reflexivity|]. split; [vm_compute; reflexivity|]. split; [reflexivity|]. eexists. vm_compute. reflexivity. Qed.
Print Assumptions C92_unsigned_refuted.
Definition w_none : world := mkW true true true true true true ring (w_encrypt w0) (w_sign w0) (w_asks w0)
  (fun e pw t => match w_open w0 e pw t with Some (a, b, _) => Some (a, b, []) | None => None end) (w_isreg w0) (w_isdir w0).
Example C92_constructor_ex : same_but_signatures w0 w_none /\ w_open w0 (mkEngine GPG_EXE None) [] (wrap x85 true None [x01]) = Some ([x01], false, [good]) /\
  w_open w_none (mkEngine GPG_EXE None) [] (wrap x85 true None [x01]) = Some ([x01], false, []) /\
  (exists x, new_with_data toy w_none pkt_signed (Some ($ "pw")) 7 None 0 = Done (success, Some x)).
Proof.
  split; [|split; [vm_compute; reflexivity|split; [vm_compute; reflexivity|eexists; vm_compute; reflexivity]]].
  split; [reflexivity|]. intros e pw t. unfold w_none. cbn [w_open]. destruct (w_open w0 e pw t) as [[[a b] l]|]; auto.
Qed.

(** *** The daemon *)
(** What the daemon does with a packet for GnuPG on a context made from it is what the model
    of the daemon (M_incoming, and the properties about it) takes it to do, with [as_gpg w g]
    for what gpgme answers under the settings [g] of the stanza. *)
Theorem C92_daemon : forall H w g a c, c_etype c <> FKO_ENCRYPTION_GPG ->
  a_gpg_require_sig a = gc_require g -> a_gpg_ignore_sig_error a = gc_ignore g ->
  match (if g_params (as_gpg w g) a then gpg_decrypt_spa_data H (as_gpg w g) a c else Ok (FKO_ERROR_UNKNOWN, c, None)) with
  | Fault => handle_gpg_enc H w g (fresh c) = Bad Memory
  | Ok (FKO_SUCCESS, c', s) => exists y, handle_gpg_enc H w g (fresh c) = Done (success, y) /\ x_c y = c' /\ option_map reported (x_sig y) = s
  | Ok _ => exists e y, handle_gpg_enc H w g (fresh c) = Done (e, y) /\ e <> success
  end.
Proof. exact handle_gpg. Qed.
Print Assumptions C92_daemon.
Definition gc1 : gpg_conf := mkGc None (Some ($ "/a")) (Some ($ "bob")) ($ "pw") true false.
Example C92_daemon_ex : c_etype (got pkt_signed) <> FKO_ENCRYPTION_GPG /\
  (exists y, handle_gpg_enc toy w0 gc1 (fresh (got pkt_signed)) = Done (success, y) /\ seen y = (Some ($ "1.2.3.4,tcp/22"), 60)) /\
  (exists y, handle_gpg_enc toy w0 gc1 (fresh (got pkt_plain)) = Done (Gpg NO_SIGNATURE, y)).
Proof. split; [vm_compute; discriminate|]. split; [eexists; split; [vm_compute; reflexivity|reflexivity]|eexists; vm_compute; reflexivity]. Qed.
(** The setting GPG_DECRYPT_ID of a stanza has no effect.  The context of a packet is not yet
    one for GnuPG when the daemon names the recipient: the call is refused, the daemon does
    not look at the result, and the packet is treated as without the setting. *)
Theorem C92_decrypt_id_refuted : forall H w w' g n msg mode hk ht x,
  new_with_data H w msg None mode hk ht = Done (success, Some x) ->
  step H w' (SetRecipient n) x = Done ((Gpg WRONG_ENCRYPTION_TYPE, None), x) /\
  handle_gpg_enc H w' (mkGc (gc_exe g) (gc_home g) (Some n) (gc_pw g) (gc_require g) (gc_ignore g)) x =
  handle_gpg_enc H w' (mkGc (gc_exe g) (gc_home g) None (gc_pw g) (gc_require g) (gc_ignore g)) x.
Proof.
  intros H w w' g n msg mode hk ht x N. pose proof (fun w' => new_recipient H w w' msg mode hk ht x n N) as R. split; [apply R|].
  unfold handle_gpg_enc. cbn [gc_exe gc_home gc_id gc_pw gc_require gc_ignore].
  assert (C : (c_etype (x_c x) =? FKO_ENCRYPTION_GPG) = false).
  { specialize (R w'). cbn [step] in R. unfold plainly, set_gpg_recipient in R. destruct (c_etype (x_c x) =? FKO_ENCRYPTION_GPG); [|reflexivity].
    cbn [negb] in R. exfalso. revert R. unfold get_gpg_key. destruct (init_gpgme w' _) as [e z]. destruct e as [[]|]; try discriminate.
    destruct (x_ptr z); try discriminate. destruct (w_list _ _ _ _) as [[|[k|] [|[k2|] l]]|]; discriminate. }
  assert (X : forall z, x_c z = x_c x -> set_gpg_recipient w' n z = Done (Gpg WRONG_ENCRYPTION_TYPE, z)).
  { intros z E. unfold set_gpg_recipient. rewrite E, C. reflexivity. }
  unfold set_gpg_exe, set_gpg_home_dir.
  destruct (gc_exe g) as [p|]; [destruct (w_isreg w' p); [|reflexivity]|]; (destruct (gc_home g) as [q|]; [destruct (w_isdir w' q); [|reflexivity]|]);
    cbv beta iota delta [success]; rewrite X by reflexivity; reflexivity.
Qed.
Print Assumptions C92_decrypt_id_refuted.
Example C92_decrypt_id_ex : exists x, new_with_data toy w0 pkt_signed None 7 None 0 = Done (success, Some x).
Proof. eexists. vm_compute. reflexivity. Qed.
