(** Replay cache properties: C21, C22. *)
From Verif Require Import Bytes P_bytes M_util M_codec M_replay S_base64 S_replay P_replay.
From Coq Require Import Init.Byte List ZArith Bool Lia.
Import ListNotations.
Open Scope Z_scope.

(** C21.  In every history of recordings and restarts of a daemon that started without a
    cache file, a digest is reported as a replay exactly if it was recorded. *)
Theorem C21_survives_restart : forall evs,
  forallb (fun e => negb (is_kill e)) evs = true -> Forall event_ok evs ->
  forall d, digest43 d ->
    (is_replay (fst (runs (cache_init None) evs)) d = Ok true <-> In d (recorded evs)) /\
    (is_replay (fst (runs (cache_init None) evs)) d = Ok false <-> ~ In d (recorded evs)).
Proof. exact survives. Qed.
Print Assumptions C21_survives_restart.

(** C21.  A recorded line read back gives the same digest, protocol, addresses, ports and
    (within the range of a C int) time. *)
Theorem C21_record_read_back : forall d p now, digest43 d -> pkt_ok p ->
  exists c, load_line (cache_line (new_element d p now)) = Some c /\
    ci_digest c = d /\ ci_proto c = p_proto p mod 256 /\ ci_src c = p_src p /\ ci_sport c = p_sport p mod 65536 /\
    ci_dst c = p_dst p /\ ci_dport c = p_dport p mod 65536 /\
    (-2147483648 <= now < 2147483648 -> ci_created c = now).
Proof.
  intros d p now D P. destruct (load_line_ok d p now D P) as (c & E & _ & H1 & H2 & H3 & H4 & H5 & H6 & H7).
  exists c. repeat split; auto. intro R. rewrite H7. apply i32_small. lia.
Qed.
Print Assumptions C21_record_read_back.

(** C22.  Whatever the cache file contained, after every history of recordings, restarts and
    kills at any byte of any write, a digest is still reported as a replay if it was recorded
    since the last start, or if its line did not directly follow an incomplete line.
    Missing for the full claim: the first digest recorded after a kill (C22_torn_line_refuted). *)
Theorem C22_survives_kill_partial : forall f evs, Forall event_ok evs ->
  forall d, digest43 d -> In d (recorded_clean (ends_torn f) evs ++ recorded_since_start evs []) ->
  is_replay (fst (runs (cache_init f) evs)) d = Ok true.
Proof. exact survives_crashes. Qed.
Print Assumptions C22_survives_kill_partial.

(** C22.  All digests recorded before the (first) kill survive it and everything after. *)
Theorem C22_before_kill : forall before after,
  forallb (fun e => negb (is_kill e)) before = true -> Forall event_ok (before ++ after) ->
  forall d, digest43 d -> In d (recorded before) ->
  is_replay (fst (runs (cache_init None) (before ++ after))) d = Ok true.
Proof.
  intros b a K F d D I. apply survives_crashes; auto. apply in_or_app. left.
  assert (X : forall a, In d (recorded_clean false (b ++ a))); [|apply X].
  clear F. induction b as [|e b IH]; [destruct I|]. intro a'. cbn in K. apply andb_prop in K as [K1 K2].
  destruct e; [|cbn; apply IH; auto|discriminate]. cbn [app recorded_clean]. destruct I as [->|I]; [left; auto|right; apply IH; auto].
Qed.
Print Assumptions C22_before_kill.

(** Looking up a digest never reads outside a buffer, whatever the file contained. *)
Theorem C22_lookup_in_bounds : forall f evs, Forall event_ok evs -> forall d, zlen d = 43 ->
  is_replay (fst (runs (cache_init f) evs)) d <> Fault.
Proof. exact never_faults. Qed.
Print Assumptions C22_lookup_in_bounds.

Definition dig (c : byte) : bytes := repeat c 43.
Definition pk : pkt_info := mkPkt 17 3232235777 40000 167772161 62201.

Lemma dig_ok c : is_b64_char c -> digest43 (dig c).
Proof.
  intro H. split; [reflexivity|]. apply Forall_forall. intros x I. apply repeat_spec in I. subst. exact H.
Qed.
Lemma pk_ok : pkt_ok pk.
Proof. split; cbn; lia. Qed.
Ltac dig43 := apply dig_ok; first [left; vm_compute; split; congruence | right; left; vm_compute; split; congruence].
Ltac evok := first [exact I | split; [dig43|exact pk_ok] | split; [dig43|split; [exact pk_ok|vm_compute; lia]]].

Example C21_ex : Forall event_ok [Recorded (dig "A") pk 1000; Restarted; Recorded (dig "b") pk 2000; Restarted] /\
  is_replay (fst (runs (cache_init None) [Recorded (dig "A") pk 1000; Restarted; Recorded (dig "b") pk 2000; Restarted])) (dig "A") = Ok true.
Proof.
  split; [|vm_compute; reflexivity].
  repeat (constructor; [evok|]). constructor.
Qed.

Definition history : list event :=
  [Recorded (dig "A") pk 1000; Killed (dig "B") pk 1001 20; Recorded (dig "C") pk 1002; Recorded (dig "D") pk 1003; Restarted].

Lemma history_ok : Forall event_ok history.
Proof.
  unfold history. repeat (constructor; [evok|]). constructor.
Qed.

Example C22_ex : Forall event_ok history /\ recorded_clean (ends_torn None) history = [dig "A"; dig "D"].
Proof. split; [exact history_ok|reflexivity]. Qed.

(** C22 is false for the first digest recorded after a kill: its line is glued to the
    incomplete line, and after the next restart the packet is accepted again. *)
Theorem C22_torn_line_refuted : exists evs d, Forall event_ok evs /\ digest43 d /\ In d (recorded evs) /\
  is_replay (fst (runs (cache_init None) evs)) d = Ok false.
Proof.
  exists history, (dig "C"). split; [exact history_ok|]. split; [|split].
  - dig43.
  - right; left; reflexivity.
  - vm_compute. reflexivity.
Qed.
Print Assumptions C22_torn_line_refuted.
