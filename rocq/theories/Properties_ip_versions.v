(** * Property C72: in-place insertion and the other versions of an iptree. *)
(** [w_exec] (IpVersProofs.v): the client runs the calls of C41 and InplaceInsertNet and
    InplaceInsertIP in any order, on any versions; in-place insertion on versions that are
    not nil. [wspec] (IpVersSpec.v): what the calls return; [ids] says which versions are
    the same *Tree, [gs] what each holds and which call stored it. *)
From Verif Require Import Prog History NumModel NumSpec IpModel IpSpec IpHist IpVersSpec IpVersProofs Properties_iptree Properties_iptree2.
Open Scope nat_scope.

(** C72: every call answers from the versions of that moment. In-place insertion shows in
    the tree it is called on. In every other version it shows as a whole or not at all,
    and nothing else happens to it, although nodes it shares are overwritten; and it can
    show only in a version that has, in some network around the new one, the same entries
    stored by the same calls. No call panics, and none writes to memory that was there
    before. *)
Theorem C72_versions : forall U (h : heap U) (ops : list (wop (value U))), Forall wop_ok ops ->
  wp (run_hist w_exec ops []) h ∅ (fun r h' _ => h ⊆ h' /\ exists ids gs, wspec 0 [] [] ops r.2 ids gs).
Proof. exact @pf_ip_versions. Qed.
Print Assumptions C72_versions.

(** C72: a tree is not affected by in-place insertion into a tree with which it has no
    stored entry in common. *)
Theorem C72_unrelated : forall V c ids (gs : list (ilog (nat * V))) i k v ids' gs' x j, wstep c ids gs (WInplace i k v) ids' gs' x ->
  nth j ids None <> nth i ids None -> (forall q y, ilog_get (nth i gs []) q = Some y -> ilog_get (nth j gs []) q <> Some y) -> nth j gs' [] = nth j gs [].
Proof. intros V. exact pf_unrelated. Qed.
Print Assumptions C72_unrelated.

(** C72: whatever the versions have in common, in-place insertion changes what they hold
    for its network only. *)
Theorem C72_elsewhere : forall V c ids (gs : list (ilog (nat * V))) i k v ids' gs' x j p, wstep c ids gs (WInplace i k v) ids' gs' x ->
  (forall q, ikey_is k (Some q) -> q <> p) -> ilog_get (nth j gs' []) p = ilog_get (nth j gs []) p.
Proof. intros V. exact pf_elsewhere. Qed.
Print Assumptions C72_elsewhere.

(** ** All outcomes occur. Version 1 is made from version 0, version 2 is built like
    version 0, version 3 is version 1 itself. In-place insertion of 10.1.0.0/16 into
    version 1 shows in versions 0, 1 and 3; that of fd00::/8 in versions 1 and 3 only. *)
Definition n10_1_16 : ipnet := Some ([x0a; x01; x00; x00], [xff; xff; x00; x00]).
Definition n192_8 : ipnet := Some ([xc0; x00; x00; x00], [xff; x00; x00; x00]).
Definition nfd_8 : ipnet := Some (xfd :: repeat x00 15, xff :: repeat x00 15).
Definition ip_vers_ops : list (wop (value nat)) :=
  [ WCall (IBuild [(KNet n10_8, VUser 1)]); WCall (IInsert 0 (KNet n192_8) (VUser 2)); WCall (IBuild [(KNet n10_8, VUser 1)]); WCall (IDelete 1 (KNet nfd_8));
    WInplace 1 (KNet n10_1_16) (VUser 3); WInplace 1 (KNet nfd_8) (VUser 4); WInplace 7 (KNet nfd_8) (VUser 5);
    WCall (IEnumerate 0); WCall (IEnumerate 1); WCall (IEnumerate 2); WCall (IEnumerate 3) ].
Example ip_vers_ok : Forall wop_ok ip_vers_ops.
Proof. repeat constructor. Qed.
Example ip_vers_run : match result (run (run_hist w_exec ip_vers_ops []) ∅ 1%positive) with
  | inl r => map (fun x => match x with IOList e => map snd e | _ => [] end) r.2
  | inr _ => [] end =
  [ []; []; []; []; []; []; []; [VUser 1; VUser 3]; [VUser 1; VUser 3; VUser 2; VUser 4]; [VUser 1]; [VUser 1; VUser 3; VUser 2; VUser 4] ].
Proof. vm_compute. reflexivity. Qed.
