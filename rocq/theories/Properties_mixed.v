(** * Property C70: histories that mix all calls with UpdateDescendants. *)
(** [u_exec] (MixProofs.v): the client runs the calls of C41 and of C47 in any order, on
    any versions; UpdateDescendants on versions that are not nil. [uspec] (ShareSpec.v):
    what the calls return. Conventions of Properties_sharing.v. *)
From Verif Require Import Prog History NumModel NumSpec IpModel IpSpec IpUpdSpec IpHist IpPropProofs IpUpdProofs.
From Verif Require Import ShareSpec MixProofs Properties_iptree Properties_iptree2 Properties_sharing.
Open Scope nat_scope.

(** C70: every call answers as the versions of that moment say, call after call: a call
    that makes a version reads and changes no other version; an update changes the
    version it is called on as C47 says and the others as C69 says. No call panics, and
    none writes to memory that was there before. *)
Theorem C70_mixed : forall U St (h : heap U) (ops : list (uop (value U) St)), Forall uop_ok ops ->
  wp (run_hist u_exec ops []) h ∅ (fun r h' _ => h ⊆ h' /\ exists gs ss, uspec 0 [] [] ops r.2 gs ss).
Proof. exact @pf_mixed. Qed.
Print Assumptions C70_mixed.

(** C70: at the end every version has the networks that it has without the updates, and
    the values as well, but for those strictly inside the target of an update. *)
Theorem C70_networks : forall U St (ops : list (uop (value U) St)) rops outs gs ss, uspec 0 [] [] ops outs gs ss -> Forall2 iresolves (calls ops) rops ->
  forall ver q, (ilog_get (nth ver gs []) q = None <-> ilog_get (iver rops ver) q = None) /\
    (no_target_around ops q -> ilog_get (nth ver gs []) q = ilog_get (iver rops ver) q).
Proof. exact @pf_mixed_networks. Qed.
Print Assumptions C70_networks.

(** C70: histories without updates are those of C41. *)
Theorem C70_no_updates : forall U St (ops : list (iop ikey (value U))) rops outs gs ss,
  uspec (St := St) 0 [] [] (map UCall ops) outs gs ss -> Forall2 iresolves ops rops ->
  exists xs, outs = map UOut xs /\ ianswers [] rops xs /\ gs = ilogs rops [].
Proof. intros. by eapply pf_mixed_calls. Qed.
Print Assumptions C70_no_updates.

(** ** Two updates with an insertion in between. Version 1 shares 10.255.0.1 with version
    0, and follows both updates there; version 2 is made from version 0 after the first
    update, stores 10.2.0.1 again, and follows the second update for 10.255.0.1. *)
Definition mix_ops : list (uop (value nat) (list nat)) :=
  [ UCall (IBuild [(KNet n10_8, VUser 1); (KNet n10_2_16, VUser 2); (KAddr a_2, VUser 3); (KAddr a_255, VUser 4)]);
    UCall (IInsert 0 (KAddr a_2) (VUser 3));
    UUpdate 0 ([x0a; x00; x00; x00], [xff; x00; x00; x00]) bump [];
    UCall (IInsert 0 (KAddr a_2) (VUser 5));
    UUpdate 1 ([x0a; x00; x00; x00], [xff; x00; x00; x00]) bump [];
    UCall (IEnumerate 0); UCall (IEnumerate 1); UCall (IEnumerate 2); UCall (IGet 2 (KAddr a_255)) ].
Example mix_ok : Forall uop_ok mix_ops.
Proof. repeat constructor; exact bump_plain. Qed.
Example mix_run : match result (run (run_hist u_exec mix_ops []) ∅ 1%positive) with
  | inl r => map (fun x => match x with UOut (IOList e) => map snd e | UOut (IOVal v) => [default VNil v] | UOut _ => [] | USt s => map VUser s end) r.2
  | inr _ => [] end =
  [ []; []; [VUser 2; VUser 3; VUser 4]; []; [VUser 2; VUser 3; VUser 104];
    [VUser 1; VUser 102; VUser 103; VUser 204]; [VUser 1; VUser 102; VUser 103; VUser 204]; [VUser 1; VUser 102; VUser 5; VUser 204]; [VUser 204] ].
Proof. vm_compute. reflexivity. Qed.
