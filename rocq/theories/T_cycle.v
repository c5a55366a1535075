(** Command cycle properties: C31, C32. *)
From Verif Require Import Bytes P_bytes M_util M_codec M_access M_cycle S_text S_access S_cycle P_cycle.
From Coq Require Import Init.Byte List ZArith Bool Lia Sorted.
Import ListNotations.
Open Scope Z_scope.

(** C31.  In every history of opened cycles and timer calls, with any clock values, a timer
    call runs the close commands of exactly the cycles that it is the first to find due, in
    the order in which they were opened. *)
Theorem C31_closed_once_partial : forall evs log fin, cruns [] evs = Ok (log, fin) ->
  forall j now, nth_error evs j = Some (Tick now) ->
  exists ps, StronglySorted (fun x y => (fst x < fst y)%nat) ps /\ nth_error log j = Some (map snd ps) /\
    forall i cmd, In (i, cmd) ps <-> closes_at evs i j cmd.
Proof. exact closed_once. Qed.
Print Assumptions C31_closed_once_partial.

(** C31.  Opening runs the open command, once, and no close command. *)
Theorem C31_open_runs : forall evs log fin, cruns [] evs = Ok (log, fin) ->
  forall j cc d num now, nth_error evs j = Some (Open cc d num now) ->
  exists ran, nth_error log j = Some ran /\
    ((exists o, build_cmd d (cc_open cc) (cc_timer cc) = Ok (Some o) /\ ran = [o]) \/
     (build_cmd d (cc_open cc) (cc_timer cc) = Ok None /\ ran = [])).
Proof. exact open_runs. Qed.
Print Assumptions C31_open_runs.

(** C31.  The timer call touches no memory outside the list, whatever the list, and leaves the
    cycles that are not due as they were. *)
Theorem C31_others_untouched : forall now l, exists ran,
  cmd_cycle_close now l = Ok (ran, filter (fun c => now <? cy_expire c) l).
Proof.
  intros now l. rewrite cmd_cycle_close_spec. eexists. f_equal. f_equal.
  apply filter_ext. intro c. unfold due. destruct (cy_expire c <=? now) eqn:A, (now <? cy_expire c) eqn:B; try reflexivity; lia.
Qed.
Print Assumptions C31_others_untouched.

(** C32.  A template all of whose dollar signs start a variable is built into the template
    with the variables replaced, if the result fits. *)
Theorem C32_substitution_partial : forall d timer proto port secs,
  first_port d proto port -> no_nul (d_use d) -> no_nul (d_pkt_src d) -> no_nul (d_pkt_dst d) ->
  ((d_client_timeout d = 0 /\ secs = timer) \/ (d_client_timeout d <> 0 /\ secs = d_client_timeout d)) ->
  0 <= secs < 10 ^ 9 -> 0 <= d_time d + secs < 10 ^ 19 ->
  exists v, request_values d proto port secs v /\
    forall t o, fills v t o -> no_nul t -> zlen t <= 256 -> zlen o <= 255 -> build_cmd d t timer = Ok (Some o).
Proof.
  intros d timer proto port secs FP N1 N2 N3 L R1 R2.
  destruct (build_cmd_ok d timer proto port secs FP) as (v & V & B); auto.
  - unfold no_nuls. auto.
  - unfold cycle_time. destruct L as [[L ->]|[L ->]]; destruct (d_client_timeout d =? 0) eqn:Q; auto; lia.
  - exists v. split; auto. intros t o F. apply B. apply fills_expands. exact F.
Qed.
Print Assumptions C32_substitution_partial.

(** C32.  The same for any template: other dollar signs are left out. *)
Theorem C32_any_template_partial : forall d timer proto port secs,
  first_port d proto port -> no_nul (d_use d) -> no_nul (d_pkt_src d) -> no_nul (d_pkt_dst d) ->
  ((d_client_timeout d = 0 /\ secs = timer) \/ (d_client_timeout d <> 0 /\ secs = d_client_timeout d)) ->
  0 <= secs < 10 ^ 9 -> 0 <= d_time d + secs < 10 ^ 19 ->
  exists v, request_values d proto port secs v /\
    forall t, no_nul t -> zlen t <= 256 -> exists o, expands v t o /\
      (zlen o <= 255 -> build_cmd d t timer = Ok (Some o)).
Proof.
  intros d timer proto port secs FP N1 N2 N3 L R1 R2.
  destruct (build_cmd_ok d timer proto port secs FP) as (v & V & B); auto.
  - unfold no_nuls. auto.
  - unfold cycle_time. destruct L as [[L ->]|[L ->]]; destruct (d_client_timeout d =? 0) eqn:Q; auto; lia.
  - exists v. split; auto. intros t N T. destruct (expands_total v (S (length t)) t) as (o & X); [lia|]. exists o. split; auto.
Qed.
Print Assumptions C32_any_template_partial.

(** C32.  Whatever the template and the request, a command that is run has at most 255
    characters. *)
Theorem C32_fits : forall d t timer o, build_cmd d t timer = Ok (Some o) -> zlen o <= 255 /\ no_nul o.
Proof. exact build_cmd_len. Qed.
Print Assumptions C32_fits.

(** ** A concrete case *)
Definition d_ex : spa_data :=
  mkSpa ($ "user") 1600000000 ($ "3.0.0") 1 ($ "10.1.2.3,tcp/22,udp/53") ($ "10.1.2.3") ($ "192.168.0.9") []
        ($ "172.16.0.1") ($ "tcp/22,udp/53") None None 0 30 ($ "10.1.2.3").
Definition d_ex2 : spa_data :=
  mkSpa ($ "user") 1600000000 ($ "3.0.0") 1 ($ "10.1.2.4,udp/53") ($ "10.1.2.4") ($ "192.168.0.9") []
        ($ "172.16.0.1") ($ "udp/53") None None 7 30 ($ "10.1.2.4").
Definition cc_ex : cycle_conf := mkCC ($ "open $IP $PROTO/$PORT until $TIMEOUT") ($ "close $SRC $PORT") true 10.

Example C32_ex : build_cmd d_ex (cc_open cc_ex) 10 = Ok (Some ($ "open 10.1.2.3 6/22 until 1600000010")) /\
  first_port d_ex 6 22.
Proof.
  split; [vm_compute; reflexivity|].
  exists ($ "tcp/22"), [$ "udp/53"], ($ "tcp"), ($ "22").
  split; [reflexivity|]. split; [|split; [reflexivity|split; [|split; [reflexivity|left; auto]]]].
  - constructor; [|constructor; [|constructor]].
    + exists ($ "tcp"), ($ "22"). split; [auto|]. split; [reflexivity|]. split; [vm_compute; intuition discriminate|]. split; [|vm_compute; intuition discriminate]. repeat constructor; vm_compute; intuition discriminate.
    + exists ($ "udp"), ($ "53"). split; [auto|]. split; [reflexivity|]. split; [vm_compute; intuition discriminate|]. split; [|vm_compute; intuition discriminate]. repeat constructor; vm_compute; intuition discriminate.
  - repeat constructor; vm_compute; intuition discriminate.
Qed.
Example C31_ex : exists fin,
  cruns [] [Open cc_ex d_ex 1 100; Open cc_ex d_ex2 2 101; Tick 107; Tick 108; Open cc_ex d_ex2 2 109; Tick 200; Tick 300] =
  Ok ([[$ "open 10.1.2.3 6/22 until 1600000010"]; [$ "open 10.1.2.4 17/53 until 1600000007"]; [];
       [$ "close 10.1.2.4 53"]; [$ "open 10.1.2.4 17/53 until 1600000007"];
       [$ "close 10.1.2.3 22"; $ "close 10.1.2.4 53"]; []], fin).
Proof. eexists. vm_compute. reflexivity. Qed.

(** ** Where the statements fail *)

(** C31.  A close command that does not fit its buffer is never run, although the cycle was
    opened; the template itself fits the limit the configuration imposes. *)
Theorem C31_close_lost_refuted : exists cc d,
  cc_do_close cc = true /\ zlen (cc_close cc) < 256 /\
  cruns [] [Open cc d 1 100; Tick 1000] = Ok ([[$ "open"]; []], []).
Proof.
  exists (mkCC ($ "open") ($ "$IP" ++ repeat "x"%byte 248) true 10), d_ex. vm_compute. auto.
Qed.
Print Assumptions C31_close_lost_refuted.

(** C32.  The buffer is overrun: the position of the next character is advanced by the full
    length of a value of which only a part was appended. *)
Theorem C32_overrun_refuted : exists d t, no_nul t /\ zlen t < 256 /\ build_cmd d t 10 = Fault.
Proof.
  exists d_ex, (repeat "x"%byte 250 ++ $ "$IP!"). split; [|vm_compute; auto].
  intro I. apply in_app_or in I as [I|I]; [apply repeat_spec in I; discriminate|].
  cbn in I. repeat destruct I as [I|I]; try discriminate; auto.
Qed.
Print Assumptions C32_overrun_refuted.

(** C32.  A command that does not fit may be run cut short. *)
Theorem C32_truncated_refuted : exists d t, zlen t < 256 /\
  build_cmd d t 10 = Ok (Some (repeat "x"%byte 250 ++ $ "10.1.")) /\ t = repeat "x"%byte 250 ++ $ "$IP" /\ d_use d = $ "10.1.2.3".
Proof. exists d_ex, (repeat "x"%byte 250 ++ $ "$IP"). vm_compute. auto. Qed.
Print Assumptions C32_truncated_refuted.

(** C32.  A dollar sign that starts no known variable is not copied. *)
Theorem C32_dollar_dropped_refuted : exists d, build_cmd d ($ "echo $HOME") 10 = Ok (Some ($ "echo HOME")).
Proof. exists d_ex. vm_compute. reflexivity. Qed.
Print Assumptions C32_dollar_dropped_refuted.
