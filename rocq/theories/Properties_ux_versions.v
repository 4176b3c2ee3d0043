(** * Property C76: in-place insertion and the other versions of a tree of uintX/iptree8, 16, 32, 64. *)
(** [x_exec] (UxVersProofs.v): the client runs the calls of C48 and InplaceInsertNet and
    InplaceInsertIP in any order, on any versions; in-place insertion on versions that are
    not nil. [xspec] (UxVersSpec.v): what the calls return; [ids] says which versions are
    the same *Tree, [gs] what each holds and which call stored it. *)
From Verif Require Import Prog History NumModel NumSpec IpModel IpSpec IpHist UxModel UxSpec UxHist IpVersSpec IpVersProofs UxVersSpec UxVersProofs Properties_iptree Properties_iptree2 Properties_ip_versions.
Open Scope nat_scope.

(** C76: every call answers from the versions of that moment. In-place insertion shows in
    the tree it is called on. In every other version it shows as a whole or not at all,
    and nothing else happens to it, although nodes it shares are overwritten. It can show
    only in a version that has, in some network around the new one, the same entries
    stored by the same calls, or that has for the new network itself, an IPv6 network of
    less than 64 bits, the same entry stored by the same call. No call panics, and none
    writes to memory that was there before. *)
Theorem C76_versions : forall U (h : heap U) (ops : list (wop (value U))), Forall wop_ok ops ->
  wp (run_hist x_exec ops []) h ∅ (fun r h' _ => h ⊆ h' /\ exists ids gs, xspec 0 [] [] ops r.2 ids gs).
Proof. exact @pf_ux_versions. Qed.
Print Assumptions C76_versions.

(** C76: a tree is not affected by in-place insertion into a tree with which it has no
    stored entry in common. *)
Theorem C76_unrelated : forall V c ids (gs : list (ilog (nat * V))) i k v ids' gs' x j, xstep c ids gs (WInplace i k v) ids' gs' x ->
  nth j ids None <> nth i ids None -> (forall q y, ilog_get (nth i gs []) q = Some y -> ilog_get (nth j gs []) q <> Some y) -> nth j gs' [] = nth j gs [].
Proof. intros V. exact pf_ux_unrelated. Qed.
Print Assumptions C76_unrelated.

(** C76: whatever the versions have in common, in-place insertion changes what they hold
    for its network only. *)
Theorem C76_elsewhere : forall V c ids (gs : list (ilog (nat * V))) i k v ids' gs' x j p, xstep c ids gs (WInplace i k v) ids' gs' x ->
  (forall q, ikey_is k (Some q) -> q <> p) -> ilog_get (nth j gs' []) p = ilog_get (nth j gs []) p.
Proof. intros V. exact pf_ux_elsewhere. Qed.
Print Assumptions C76_elsewhere.

(** ** All outcomes occur, those of C72 first. *)
Example ux_vers_run : match result (run (run_hist x_exec ip_vers_ops []) ∅ 1%positive) with
  | inl r => map (fun x => match x with IOList e => map snd e | _ => [] end) r.2
  | inr _ => [] end =
  [ []; []; []; []; []; []; []; [VUser 1; VUser 3]; [VUser 1; VUser 3; VUser 2; VUser 4]; [VUser 1]; [VUser 1; VUser 3; VUser 2; VUser 4] ].
Proof. vm_compute. reflexivity. Qed.

(** The difference from iptree: version 1 is made from version 0 by inserting fd80::/9, so
    they hold different entries in every network around fd00::/8. InplaceInsert of
    fd00::/8 into version 1 shows in version 0 of a tree of uintX, and does not in
    version 0 of an iptree. *)
Definition nfd80_9 : ipnet := Some (xfd :: x80 :: repeat x00 14, xff :: x80 :: repeat x00 14).
Definition ux_short_ops : list (wop (value nat)) :=
  [ WCall (IBuild [(KNet nfd_8, VUser 1)]); WCall (IInsert 0 (KNet nfd80_9) (VUser 2)); WInplace 1 (KNet nfd_8) (VUser 3); WCall (IEnumerate 0); WCall (IEnumerate 1) ].
Example ux_short_ok : Forall wop_ok ux_short_ops.
Proof. repeat constructor. Qed.
Example ux_short_run : match result (run (run_hist x_exec ux_short_ops []) ∅ 1%positive) with
  | inl r => map (fun x => match x with IOList e => map snd e | _ => [] end) r.2
  | inr _ => [] end = [ []; []; []; [VUser 3]; [VUser 3; VUser 2] ].
Proof. vm_compute. reflexivity. Qed.
Example ip_short_run : match result (run (run_hist w_exec ux_short_ops []) ∅ 1%positive) with
  | inl r => map (fun x => match x with IOList e => map snd e | _ => [] end) r.2
  | inr _ => [] end = [ []; []; []; [VUser 1]; [VUser 3; VUser 2] ].
Proof. vm_compute. reflexivity. Qed.
