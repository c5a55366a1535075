(** Histories of the replay cache.  An event is a digest being recorded, the daemon being
    stopped and started, or the daemon being killed while it writes a digest to disk. *)
From Verif Require Import Bytes M_util M_replay S_base64.
From Coq Require Import Init.Byte List ZArith Bool.
Import ListNotations.
Open Scope Z_scope.

Inductive event :=
| Recorded (d : bytes) (p : pkt_info) (now : Z)
| Restarted
| Killed (d : bytes) (p : pkt_info) (now : Z) (written : nat).

(** Text of a SHA-256 digest: 43 base64 characters. *)
Definition digest43 (d : bytes) : Prop := zlen d = 43 /\ Forall is_b64_char d.

(** Field widths of a captured packet. *)
Definition pkt_ok (p : pkt_info) : Prop :=
  0 <= p_src p < 4294967296 /\ 0 <= p_dst p < 4294967296.

Definition event_ok (e : event) : Prop :=
  match e with
  | Recorded d p _ => digest43 d /\ pkt_ok p
  | Restarted => True
  | Killed d p now k => digest43 d /\ pkt_ok p /\ (k < List.length (cache_line (new_element d p now)))%nat
  end.

(** What happens to the memory and the disk of the daemon.  A killed daemon leaves the first
    [k] bytes of the line on disk and is started again. *)
Definition happen (st : cache * file) (e : event) : cache * file :=
  match e with
  | Recorded d p now => snd (add_replay true d p now st)
  | Restarted => cache_init (snd st)
  | Killed d p now k =>
      cache_init (Some (match snd st with Some f => f | None => [] end
                        ++ firstn k (cache_line (new_element d p now))))
  end.
Definition runs (st : cache * file) (l : list event) : cache * file := fold_left happen l st.

(** The digests recorded in a history. *)
Fixpoint recorded (l : list event) : list bytes :=
  match l with
  | [] => []
  | Recorded d _ _ :: r => d :: recorded r
  | _ :: r => recorded r
  end.

Definition is_kill (e : event) : bool := match e with Killed _ _ _ _ => true | _ => false end.

(** The digests recorded in a history, leaving out each one that directly follows an
    incomplete line on disk.  [torn]: the file ends in an incomplete line. *)
Fixpoint recorded_clean (torn : bool) (l : list event) : list bytes :=
  match l with
  | [] => []
  | Recorded d _ _ :: r => (if torn then [] else [d]) ++ recorded_clean false r
  | Restarted :: r => recorded_clean torn r
  | Killed _ _ _ k :: r => recorded_clean (torn || negb (Nat.eqb k 0)) r
  end.

(** The digests recorded since the last start. *)
Fixpoint recorded_since_start (l : list event) (acc : list bytes) : list bytes :=
  match l with
  | [] => acc
  | Recorded d _ _ :: r => recorded_since_start r (d :: acc)
  | _ :: r => recorded_since_start r []
  end.

(** The file ends in an incomplete line. *)
Definition ends_torn (f : file) : bool :=
  match f with
  | None => false
  | Some s => match rev s with [] => false | c :: _ => negb (beq c x0a) end
  end.
