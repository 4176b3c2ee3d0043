(** * Property C73: all calls of iptree, on any versions, in any order. *)
(** [a_exec] (IpAllProofs.v): the client runs the calls of C41, in-place insertion (C72)
    and UpdateDescendants (C70) in any order, on any versions; the last two on versions
    that are not nil. [aspec] (IpAllSpec.v): what the calls return; [ids] says which
    versions are the same *Tree, [gs] what each holds and which call stored it. *)
From Verif Require Import Prog History NumModel NumSpec IpModel IpSpec IpUpdSpec IpHist IpVersSpec IpAllSpec IpAllProofs.
From Verif Require Import Properties_iptree Properties_iptree2 Properties_sharing Properties_ip_versions.
Open Scope nat_scope.

(** C73: every call answers from the versions of that moment. In-place insertion shows in
    its tree, and in every other version as a whole or not at all, where they hold the
    same entries of the same calls around it. An update changes its tree as its callback
    says, and other versions only where they hold the same entry of the same call, and
    there in the same way. No call panics, and none writes to memory that was there
    before. *)
Theorem C73_all : forall U St (h : heap U) (ops : list (aop (value U) St)), Forall aop_ok ops ->
  wp (run_hist a_exec ops []) h ∅ (fun r h' _ => h ⊆ h' /\ exists ids gs, aspec 0 [] [] ops r.2 ids gs).
Proof. exact @pf_ip_all. Qed.
Print Assumptions C73_all.

(** C73: versions that are the same object always hold the same. *)
Theorem C73_same_object : forall V St (ops : list (aop V St)) outs ids gs, aspec 0 [] [] ops outs ids gs ->
  forall i j n q, nth i ids None = Some n -> nth j ids None = Some n -> ilog_get (nth i gs []) q = ilog_get (nth j gs []) q.
Proof. intros V St. exact pf_same_object. Qed.
Print Assumptions C73_same_object.

(** C73: in-place insertion and updates leave every version alone that has no entry in
    common with the version they are called on. *)
Theorem C73_unrelated : forall V St c ids gs (o : aop V St) ids' gs' x i j, astep c ids gs o ids' gs' x -> (exists k v, o = AOp (WInplace i k v)) \/ (exists n cb s, o = AUpdate i n cb s) ->
  nth j ids None <> nth i ids None -> (forall q y, ilog_get (nth i gs []) q = Some y -> ilog_get (nth j gs []) q <> Some y) ->
  forall q, ilog_get (nth j gs' []) q = ilog_get (nth j gs []) q.
Proof. intros V St. exact pf_all_unrelated. Qed.
Print Assumptions C73_unrelated.

(** C73: whatever was written in place, every entry of every version was stored for its
    network by the call whose number it has, and it has the value that this call was
    given, unless an update has a target strictly around it. *)
Theorem C73_values : forall V St (ops : list (aop V St)) outs ids gs, aspec 0 [] [] ops outs ids gs ->
  forall ver q c v, ilog_get (nth ver gs []) q = Some (c, v) ->
  exists o w, ops !! c = Some o /\ stores o q w /\ (never_updated ops q -> v = w).
Proof. intros V St. exact pf_all_values. Qed.
Print Assumptions C73_values.

(** ** Version 1 is made from version 0, version 2 is built like version 0. In-place
    insertion of 10.1.0.0/16 into version 1 shows in version 0, with which it shares
    10.0.0.0/8; the update of version 0 then changes it in version 1 as well; version 3
    stores it again, and does not follow the second update. *)
Definition all_ops : list (aop (value nat) (list nat)) :=
  [ AOp (WCall (IBuild [(KNet n10_8, VUser 1); (KAddr a_2, VUser 2)])); AOp (WCall (IInsert 0 (KNet n192_8) (VUser 3)));
    AOp (WCall (IBuild [(KNet n10_8, VUser 1); (KAddr a_2, VUser 2)]));
    AOp (WInplace 1 (KNet n10_1_16) (VUser 4));
    AUpdate 0 ([x0a; x00; x00; x00], [xff; x00; x00; x00]) bump [];
    AOp (WCall (IInsert 1 (KNet n10_1_16) (VUser 5)));
    AUpdate 1 ([x0a; x00; x00; x00], [xff; x00; x00; x00]) bump [];
    AOp (WInplace 3 (KNet nfd_8) (VUser 6));
    AOp (WCall (IEnumerate 0)); AOp (WCall (IEnumerate 1)); AOp (WCall (IEnumerate 2)); AOp (WCall (IEnumerate 3)) ].
Example all_ops_ok : Forall aop_ok all_ops.
Proof. repeat constructor; exact bump_plain. Qed.
Example all_ops_run : match result (run (run_hist a_exec all_ops []) ∅ 1%positive) with
  | inl r => map (fun x => match x with AOut (IOList e) => map snd e | AOut _ => [] | ASt s => map VUser s end) r.2
  | inr _ => [] end =
  [ []; []; []; []; [VUser 4; VUser 2]; []; [VUser 104; VUser 102]; [];
    [VUser 1; VUser 204; VUser 202]; [VUser 1; VUser 204; VUser 202; VUser 3]; [VUser 1; VUser 2]; [VUser 1; VUser 5; VUser 202; VUser 3; VUser 6] ].
Proof. vm_compute. reflexivity. Qed.
