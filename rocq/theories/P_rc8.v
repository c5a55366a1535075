(** Proofs about the configuration of the client: the statements of the theorems. *)
From Verif Require Import Bytes M_accfile M_base64 M_util M_message M_codec M_cipher M_ctx M_access M_replay M_cycle M_incoming M_conf M_codec M_client M_send
  S_base64 S_text S_conf S_accfile S_client S_send P_bytes P_base64 P_util P_util2 P_access P_replay P_conf P_accfile P_accfile2 P_accfile3 P_accfile4 P_accfile6 P_message P_codec P_ctx2 P_client P_client4 P_incoming5 P_fw9 M_rc S_rc P_rc P_rc2 P_rc3 P_rc4 P_rc5 P_rc6 P_rc7.
From Coq Require Import Init.Byte List ZArith Bool Lia.
Import ListNotations.
Open Scope Z_scope.

Local Ltac ands := repeat match goal with |- _ /\ _ => split end.

(** ** A file says one thing *)
Lemma heading_unique l n n' : heading l n -> heading l n' -> n = n'.
Proof. intros A B. apply heading_rc_section in A, B. congruence. Qed.
Lemma sets_unique l n v n' v' : line_ok l -> simple l -> sets l n v -> sets l n' v' -> n = n' /\ v = v'.
Proof. intros (NL & N0 & _) SI A B. apply sets_rc_param in A as [_ A]; auto. apply sets_rc_param in B as [_ B]; auto. rewrite A in B. injection B. auto. Qed.
Lemma stanza_unique name lines : Forall line_ok lines -> Forall simple lines -> forall h es es', stanza name h lines es -> stanza name h lines es' -> es = es'.
Proof.
  intros LO SI. induction lines as [|l lines IH]; intros h es es' A B; [inversion A; inversion B; reflexivity|].
  pose proof (Forall_inv LO) as LL. pose proof (Forall_inv SI) as SL. specialize (IH (Forall_inv_tail LO) (Forall_inv_tail SI)).
  inversion A as [|? ? ? ? C1 A1|? ? n1 ? ? H1 N1 A1|? ? n1 ? ? H1 N1 A1|? ? ? C1 N1 A1|? n1 v1 ? es1 S1 A1]; subst;
  inversion B as [|? ? ? ? C2 B1|? ? n2 ? ? H2 N2 B1|? ? n2 ? ? H2 N2 B1|? ? ? C2 N2 B1|? n2 v2 ? es2 S2 B1]; subst;
    try (eapply IH; eassumption);
    try (exfalso; match goal with C : comment l, H : heading l _ |- _ => exact (proj1 H C) | C : comment l, N : ~ comment l |- _ => exact (N C) | C : comment l, S : sets l _ _ |- _ => exact (proj1 S C)
      | H : heading l ?n, N : forall n, ~ heading l n |- _ => exact (N n H) | H : heading l ?n, S : sets l _ _ |- _ => exact (proj1 (proj2 S) n H) end);
    try (exfalso; rewrite (heading_unique _ _ _ H1 H2) in *; contradiction).
  destruct (sets_unique _ _ _ _ _ LL SL S1 S2) as [-> ->]. f_equal. eapply IH; eassumption.
Qed.

(** ** What the program starts with *)
Theorem started rc lines args o m :
  (rc = Some (file lines) \/ rc = None /\ lines = []) -> Forall line_ok lines -> Forall (fun l => ~ In x0b l /\ ~ In x0c l) lines -> (forall l, In l lines -> ~ heading l []) ->
  config_init rc args = Ok (Some (o, m)) ->
  exists r, rc_says lines (command args) r /\ settings r (command args) o /\ Forall (fun e => allowed (fst e) (snd e)) r.
Proof.
  intros RC LO SI NE E. destruct (config_parts rc lines args o m RC LO SI NE E) as (r & o1 & o2 & RS & TR & SN & M1 & MV & CH & GC).
  exists r. ands; [exact RS|exact (set_settings r args o1 o2 o TR M1 MV CH GC)|].
  rewrite Forall_forall in *. intros [n v] I. cbn [fst snd]. apply taken_allowed; [|now apply TR].
  destruct (SN n v I) as (l & L & S). apply sets_len in S. apply LO in L as (_ & _ & L). lia.
Qed.
Theorem accepted_usable rc lines args o m :
  (rc = Some (file lines) \/ rc = None /\ lines = []) -> Forall line_ok lines -> Forall (fun l => ~ In x0b l /\ ~ In x0c l) lines -> (forall l, In l lines -> ~ heading l []) ->
  config_init rc args = Ok (Some (o, m)) -> usable o.
Proof.
  intros RC LO SI NE E. destruct (config_parts rc lines args o m RC LO SI NE E) as (r & o1 & o2 & RS & TR & SN & M1 & MV & CH & GC).
  exact (us_usable r args o1 o2 o TR M1 MV CH GC).
Qed.
Lemma command_no_nul args : Forall (fun a => no_nul (snd a)) args -> forall n v, In (n, v) (command args) -> no_nul v.
Proof.
  intros F n v I. unfold command in I. rewrite in_concat in I. destruct I as (l & L & I). apply in_map_iff in L as ([k w] & <- & A).
  rewrite Forall_forall in F. specialize (F _ A). cbn [snd] in F.
  assert (Y : no_nul ($ "Y")) by (intros Q; vm_compute in Q; intuition discriminate).
  assert (HT : no_nul ($ "http")) by (intros Q; vm_compute in Q; intuition discriminate).
  destruct k; cbn [means] in I; repeat (destruct I as [I|I]; [injection I as _ <-; assumption|]); contradiction.
Qed.
Theorem accepted_options rc lines args o m file0 p1 p2 ip w :
  (rc = Some (file lines) \/ rc = None /\ lines = []) -> Forall line_ok lines -> Forall (fun l => ~ In x0b l /\ ~ In x0c l) lines -> (forall l, In l lines -> ~ heading l []) ->
  Forall (fun a => no_nul (snd a)) args -> config_init rc args = Ok (Some (o, m)) -> sends o -> letter_or_digit (hd x00 (txt o t_server)) ->
  an_address ip -> zlen ip <= 15 -> (forall h a, w_addr w h = Some a -> 0 <= a < 4294967296) ->
  options_ok (to_options file0 p1 p2 ip o) /\ route_ok w (to_route o).
Proof.
  intros RC LO SI NE NA E S LD (a & b & c & d & IP) LI W. destruct (config_parts rc lines args o m RC LO SI NE E) as (r & o1 & o2 & RS & TR & SN & M1 & MV & CH & GC).
  assert (NR : forall n v, In (n, v) (r ++ command args) -> no_nul v).
  { intros n v I. apply in_app_or in I as [I|I]; [|exact (command_no_nul args NA n v I)]. destruct (SN n v I) as (l & L & ST).
    rewrite Forall_forall in LO. destruct (LO _ L) as (_ & N0 & _). intros Q. apply N0. eapply sets_in; eauto. }
  pose proof (us_usable r args o1 o2 o TR M1 MV CH GC) as U. split.
  - eapply us_options; eauto.
    + apply U, S.
    + intros Q. pose proof (address_chars _ _ _ _ _ IP) as F. rewrite Forall_forall in F. apply F in Q as [Q|Q]; [vm_compute in Q; destruct Q as [Q _]; apply Q; reflexivity|discriminate Q].
    + apply (ipv4_no_comma _ _ _ _ _ IP).
  - eapply us_route; eauto.
Qed.
(** The mode for old servers never goes with an HMAC. *)
Theorem accepted_modes rc lines args o m file0 p1 p2 ip :
  (rc = Some (file lines) \/ rc = None /\ lines = []) -> Forall line_ok lines -> Forall (fun l => ~ In x0b l /\ ~ In x0c l) lines -> (forall l, In l lines -> ~ heading l []) ->
  config_init rc args = Ok (Some (o, m)) -> o_hmac (to_options file0 p1 p2 ip o) <> None -> or_default (o_mode (to_options file0 p1 p2 ip o)) 2 <> 8.
Proof.
  intros RC LO SI NE E HM. destruct (config_parts rc lines args o m RC LO SI NE E) as (r & o1 & o2 & RS & TR & SN & M1 & MV & CH & GC).
  pose proof (us_usable r args o1 o2 o TR M1 MV CH GC) as U. pose proof (set_settings r args o1 o2 o TR M1 MV CH GC) as SE.
  cbn [to_options o_mode o_hmac] in *. intros Q. assert (M : num o q_mode = 8). { unfold or_default in Q. destruct (num o q_mode =? 0); [discriminate Q|exact Q]. }
  pose proof (us_legacy _ U M) as UH. apply HM. unfold hmac_source_of. unfold is_set at 3. rewrite UH.
  assert (G : forall p f, In ([p], f) given_vars -> (p = $ "HMAC_KEY" \/ p = $ "HMAC_KEY_BASE64") -> is_set o f = false).
  { intros p f I P. destruct (se_given _ _ _ SE _ _ I) as [[(p' & [<-|[]] & MM) _]|[_ EE]]; [exfalso|unfold is_set; rewrite EE; reflexivity].
    destruct (se_use_hmac _ _ _ SE) as [[_ X]|[X _]]; [lia|]. apply X. destruct P as [-> | ->]; auto. }
  rewrite (G ($ "HMAC_KEY") q_have_hmac), (G ($ "HMAC_KEY_BASE64") q_have_hmac64) by (auto; unfold given_vars; cbn [In]; tauto). reflexivity.
Qed.
