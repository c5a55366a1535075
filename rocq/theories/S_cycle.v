(** Specification of command cycles and of command templates. *)
From Verif Require Import Bytes M_util M_cycle S_text.
From Coq Require Import Init.Byte List ZArith Bool Sorted.
Import ListNotations.
Open Scope Z_scope.

(** ** Templates *)

(** What the variables of a template stand for. *)
Record values := mkValues {
  v_ip : bytes; v_pkt_src : bytes; v_dst : bytes; v_port : bytes; v_proto : bytes;
  v_timeout : bytes; v_client_timeout : bytes }.

(** [fills v t out]: [out] is the template [t] with every variable replaced by its value and
    everything else copied; every dollar sign of [t] starts a variable. *)
Inductive fills (v : values) : bytes -> bytes -> Prop :=
| f_end : fills v [] []
| f_char : forall c t o, c <> "$"%byte -> fills v t o -> fills v (c :: t) (c :: o)
| f_ip : forall t o, fills v t o -> fills v ($ "$IP" ++ t) (v_ip v ++ o)
| f_src : forall t o, fills v t o -> fills v ($ "$SRC" ++ t) (v_ip v ++ o)
| f_pkt_src : forall t o, fills v t o -> fills v ($ "$PKT_SRC" ++ t) (v_pkt_src v ++ o)
| f_dst : forall t o, fills v t o -> fills v ($ "$DST" ++ t) (v_dst v ++ o)
| f_port : forall t o, fills v t o -> fills v ($ "$PORT" ++ t) (v_port v ++ o)
| f_proto : forall t o, fills v t o -> fills v ($ "$PROTO" ++ t) (v_proto v ++ o)
| f_timeout : forall t o, fills v t o -> fills v ($ "$TIMEOUT" ++ t) (v_timeout v ++ o)
| f_client : forall t o, fills v t o -> fills v ($ "$CLIENT_TIMEOUT" ++ t) (v_client_timeout v ++ o).

(** The same for any template: a dollar sign that starts no variable is left out. *)
Definition var_names : list bytes :=
  [$ "IP"; $ "SRC"; $ "PKT_SRC"; $ "DST"; $ "PORT"; $ "PROTO"; $ "TIMEOUT"; $ "CLIENT_TIMEOUT"].
Inductive expands (v : values) : bytes -> bytes -> Prop :=
| x_end : expands v [] []
| x_char : forall c t o, c <> "$"%byte -> expands v t o -> expands v (c :: t) (c :: o)
| x_drop : forall t o, Forall (fun n => ~ exists r, t = n ++ r) var_names ->
    expands v t o -> expands v ("$"%byte :: t) o
| x_ip : forall t o, expands v t o -> expands v ($ "$IP" ++ t) (v_ip v ++ o)
| x_src : forall t o, expands v t o -> expands v ($ "$SRC" ++ t) (v_ip v ++ o)
| x_pkt_src : forall t o, expands v t o -> expands v ($ "$PKT_SRC" ++ t) (v_pkt_src v ++ o)
| x_dst : forall t o, expands v t o -> expands v ($ "$DST" ++ t) (v_dst v ++ o)
| x_port : forall t o, expands v t o -> expands v ($ "$PORT" ++ t) (v_port v ++ o)
| x_proto : forall t o, expands v t o -> expands v ($ "$PROTO" ++ t) (v_proto v ++ o)
| x_timeout : forall t o, expands v t o -> expands v ($ "$TIMEOUT" ++ t) (v_timeout v ++ o)
| x_client : forall t o, expands v t o -> expands v ($ "$CLIENT_TIMEOUT" ++ t) (v_client_timeout v ++ o).

(** The decimal text of a number. *)
Definition writes (s : bytes) (n : Z) : Prop :=
  s <> [] /\ all_digits s /\ decimal s = n /\ (hd x00 s = "0"%byte -> s = ["0"%byte]).

(** The time a cycle opened by a request is to last. *)
Definition lasts (cc : cycle_conf) (d : spa_data) (secs : Z) : Prop :=
  (d_client_timeout d = 0 /\ secs = cc_timer cc) \/ (d_client_timeout d <> 0 /\ secs = d_client_timeout d).

(** The values for a request: the address that is opened, the addresses of the packet, the
    first protocol and port asked for, the time at which the access ends, its duration. *)
Definition request_values (d : spa_data) (proto port secs : Z) (v : values) : Prop :=
  v_ip v = d_use d /\ v_pkt_src v = d_pkt_src d /\ v_dst v = d_pkt_dst d /\
  writes (v_port v) port /\ writes (v_proto v) proto /\
  writes (v_timeout v) (d_time d + secs) /\ writes (v_client_timeout v) secs.

(** The first entry of the request. *)
Definition first_port (d : spa_data) (proto port : Z) : Prop :=
  exists it its p ds, d_remain d = join [","%byte] (it :: its) /\ Forall proto_port (it :: its) /\
    it = p ++ ["/"%byte] ++ ds /\ all_digits ds /\ port = decimal ds /\
    ((p = $ "tcp" /\ proto = 6) \/ (p = $ "udp" /\ proto = 17)).

(** ** Histories of command cycles *)

(** A cycle is opened for a request, or the timer routine is called. *)
Inductive cevent :=
| Open (cc : cycle_conf) (d : spa_data) (num now : Z)
| Tick (now : Z).

(** The commands run at each event, and the list of open cycles. *)
Fixpoint cruns (l : list cycle) (evs : list cevent) : outcome (list (list bytes) * list cycle) :=
  match evs with
  | [] => Ok ([], l)
  | e :: r =>
      match (match e with
             | Open cc d num now =>
                 match cmd_cycle_open cc d num now l with
                 | Ok (_, ran, l') => Ok (ran, l')
                 | Fault => Fault
                 end
             | Tick now =>
                 match cmd_cycle_close now l with
                 | Ok (ran, l') => Ok (map cy_close ran, l')
                 | Fault => Fault
                 end
             end) with
      | Fault => Fault
      | Ok (ran, l') => match cruns l' r with
                        | Fault => Fault
                        | Ok (log, l'') => Ok (ran :: log, l'')
                        end
      end
  end.

(** Event [i] opened a cycle that is to be closed by command [cmd] at time [at_]. *)
Definition opens (evs : list cevent) (i : nat) (cmd : bytes) (at_ : Z) : Prop :=
  exists cc d num now o secs, nth_error evs i = Some (Open cc d num now) /\
    build_cmd d (cc_open cc) (cc_timer cc) = Ok (Some o) /\ cc_do_close cc = true /\
    build_cmd d (cc_close cc) (cc_timer cc) = Ok (Some cmd) /\
    lasts cc d secs /\ at_ = now + secs.

(** The cycle opened at [i] is to be closed at [j]: [j] is the first timer call after [i] at
    which its time has passed. *)
Definition closes_at (evs : list cevent) (i j : nat) (cmd : bytes) : Prop :=
  exists at_ now, opens evs i cmd at_ /\ (i < j)%nat /\ nth_error evs j = Some (Tick now) /\ at_ <= now /\
    forall k now', (i < k < j)%nat -> nth_error evs k = Some (Tick now') -> now' < at_.
