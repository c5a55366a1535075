(** The vocabulary of the property of the queue of netfilter. *)
From Verif Require Import Bytes M_util M_replay M_cycle M_incoming M_packet M_fw M_fwinit M_daemon S_packet S_incoming M_nfq.
From Verif Require M_life.
From Coq Require Import Init.Byte List ZArith Bool.
Import ListNotations.
Open Scope Z_scope.

(** The first octets of an address *)
Definition octet1 (a : Z) : Z := a / 16777216.
Definition octets12 (a : Z) : Z := a / 65536.
(** Sources whose first two octets are not taken for a type of Ethernet frames: 0.0 to 5.220,
    129.0 and 170.170 are. *)
Definition ordinary (src : Z) : Prop := 1500 < octets12 src /\ octets12 src <> 129 * 256 + 0 /\ octets12 src <> 170 * 256 + 170.

Definition a_round : Type := list M_life.signal * recv * Z.
(** The packet [q] comes in one of the rounds. *)
Definition comes (l : list a_round) (q : queued) : Prop := exists sigs n ps now, In (sigs, Got n ps, now) l /\ In q ps.
(** In every round something is received. *)
Definition busy (l : list a_round) : Prop := forall sigs r now, In (sigs, r, now) l -> exists n ps, r = Got n ps.
(** The packets of all rounds, in order *)
Definition queue_of (l : list a_round) : list queued := flat_map (fun x => match snd (fst x) with Got _ ps => ps | _ => [] end) l.
(** The turn of the daemon [t] comes from these rounds: a pass over the chains that have a rule
    that may have expired, or a packet of the queue that was taken apart. *)
Definition turn_of (l : list a_round) (t : turn) : Prop :=
  match t with
  | Sweep all now => all = false /\ exists sigs r, In (sigs, r, now) l
  | Receive en p later => exists q data i, comes l q /\ seen (q_bytes q) = Ok (Some (data, i)) /\ en = q_env q /\ later = q_later q /\
      payload p = data /\ k_info p = i
  | _ => False
  end.
Definition world_after {W} (y : progress W) : world W := match y with On _ w => w | Left _ w => w | GaveUp _ w => w end.
(** The signals that ask the daemon to end or to begin anew *)
Definition stops (g : M_life.signal) : Prop := g = M_life.SIGINT \/ g = M_life.SIGTERM \/ g = M_life.SIGHUP.
(** How many errors there were since nothing was received the last time; packets in between do
    not count. *)
Definition errors_since (l : list a_round) : Z := fold_left (fun n x => match snd (fst x) with Failed => n + 1 | Nothing => 0 | Got _ _ => n end) l 0.
(** How many bytes were received *)
Definition bytes_received (l : list a_round) : Z := fold_left (fun n x => match snd (fst x) with Got m _ => n + m | _ => n end) l 0.
Definition told (l : list a_round) : Prop := exists sigs r now g, In (sigs, r, now) l /\ In g sigs /\ stops g.
