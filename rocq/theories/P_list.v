(** Proofs about fwknopd --fw-list, --fw-list-all and --fw-flush. *)
From Verif Require Import Bytes M_util M_packet M_cycle M_fw M_fwinit M_list S_text S_fw S_fwinit S_list P_bytes P_util2 P_fw P_fw2 P_fw7 P_fwinit.
From Coq Require Import Init.Byte List ZArith Bool Lia.
Import ListNotations.
Open Scope Z_scope.

Ltac fits := cbn [join app]; rewrite ?zlen_app;
  repeat match goal with |- context [zlen (str ?s)] => let v := eval vm_compute in (zlen (str s)) in change (zlen (str s)) with v end;
  change (zlen [" "%byte]) with 1; lia.

Section Lists.
Variable W : Type.
Variable exec : W -> list bytes -> W * ended * bytes.
Variable cf : fwconf.

Lemma list_argv all c : names_fit (f_cmd cf) c -> strtoargv (list_command cf all c) = Ok (Some (listing_of (f_cmd cf) all c)).
Proof.
  intros (W1 & W2 & W3 & W4 & W5 & J & UM & L).
  pose proof (zlen_nonneg (c_from c)). pose proof (zlen_nonneg (c_target c)). pose proof (zlen_nonneg (c_to c)).
  assert (E : f_cmd cf ++ $ " -t " ++ c_table c ++ (if all then $ " -v -n -L --line-numbers" else $ " -L " ++ c_to c ++ $ " --line-numbers -n") = join [" "%byte] (listing_of (f_cmd cf) all c)).
  { unfold listing_of. destruct all; cbn [join]; rewrite <- ?app_assoc; reflexivity. }
  assert (LN : zlen (join [" "%byte] (listing_of (f_cmd cf) all c)) <= 254).
  { rewrite <- E. destruct all; fits. }
  unfold list_command. rewrite E, fmt_id by lia. apply argv_join; [|destruct all; reflexivity|lia].
  unfold listing_of. destruct all; words_ok.
Qed.

Lemma in_use_all cs : exists us, in_use cs us.
Proof. induction cs as [|c cs [us IH]]; [exists []; constructor|]. destruct (c_target c) eqn:T; [exists us; constructor; auto|exists (c :: us); constructor; auto; congruence]. Qed.
Lemma in_use_in cs us c : in_use cs us -> In c us -> In c cs /\ c_target c <> [].
Proof. induction 1 as [|d cs us T I IH|d cs us T I IH]; [intros []| |]; [intros [<-|Q]; [split; [now left|exact T]|]|intro Q]; destruct (IH Q); split; auto; now right. Qed.

(** What the commands write *)
Fixpoint written (all : bool) (w : W) (us : list chain) : bytes :=
  match us with
  | [] => []
  | c :: r => let '(w', e, out) := exec w (listing_of (f_cmd cf) all c) in
              (if all then [] else [x0a]) ++ (match e with NotStarted => [] | _ => out end) ++ written all w' r
  end.
Lemma dump_spec all cs us : in_use cs us -> Forall (names_fit (f_cmd cf)) us -> forall w,
  dump_chains W exec cf all cs w = Ok (written all w us, runs exec w (map (listing_of (f_cmd cf) all) us)).
Proof.
  induction 1 as [|c cs us T I IH|c cs us T I IH]; intros F w; cbn [dump_chains].
  - reflexivity.
  - inversion F as [|? ? N F']; subst.
    assert (Z0 : zlen (c_target c) =? 0 = false).
    { destruct (c_target c) as [|x y]; [easy|]. rewrite zlen_cons. pose proof (zlen_nonneg y). apply Z.eqb_neq. lia. }
    rewrite Z0. unfold run_shown. rewrite (list_argv all c N). cbn [bind written map runs].
    destruct (exec w (listing_of (f_cmd cf) all c)) as [[w' e] out]. cbn [fst]. destruct e; rewrite (IH F' w'); reflexivity.
  - rewrite T. change (zlen [] =? 0) with true. cbv iota. apply IH, F.
Qed.
End Lists.

Section Ipt.
Variable K : iptables.
Variable cf : fwconf.
Notation run := (run_iptables K).
Lemma list_ipt fw all c : ipt K fw (listing_of (f_cmd cf) all c) = (fw, if all then trouble K else shows K fw c).
Proof.
  unfold listing_of, shows, ipt. destruct all; change (bseq ($ "-t") ($ "-t")) with true; cbv iota; unfold ipt_table.
  - destruct (fw (c_table c) ($ "-n")); reflexivity.
  - destruct (fw (c_table c) (c_to c)); reflexivity.
Qed.
Lemma runs_same all us : forall fw fs, exists fs', runs run (fw, fs) (map (listing_of (f_cmd cf) all) us) = (fw, fs').
Proof.
  induction us as [|c us IH]; intros fw fs; cbn [map runs]; [eauto|]. unfold run_iptables at 2. rewrite list_ipt.
  destruct (hd Runs fs); cbn [fst]; apply IH.
Qed.
Lemma written_shown us : forall fw, written machine run cf false (fw, []) us = concat (map (fun c => [x0a] ++ shows K fw c) us).
Proof.
  induction us as [|c us IH]; intro fw; cbn [written map concat]; [reflexivity|]. unfold run_iptables at 1. rewrite list_ipt. cbn [hd tl]. rewrite IH, <- app_assoc. reflexivity.
Qed.
End Ipt.
