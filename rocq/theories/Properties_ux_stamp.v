(** * Property C81: exactly which versions of a tree of uintX see an in-place insertion. *)
(** [x_exec] (UxVersProofs.v): the client of C76, any calls in any order on any versions.
    [ustep] (UxStampSpec.v): what the calls return. It keeps for each version the number of
    the call that made its *Tree and that of the call that made each part of it. *)
From Verif Require Import Prog History NumModel NumSpec NumNavSpec StampSpec StampProofs IpModel IpSpec IpHist IpVersSpec IpVersProofs IpStampSpec UxModel UxSpec UxHist UxVersProofs UxStampSpec UxStampProofs Properties_iptree Properties_iptree2 Properties_ip_versions Properties_ip_stamp.
Open Scope nat_scope.

(** C81: InplaceInsertNet and InplaceInsertIP reach the versions that are the same *Tree,
    those that have the part around the new network from the same call, and for an IPv6
    network also those that have the part around its key from the same call. These get the
    insertion and every other version stays as it is. No call panics, and none writes to
    memory that was there before. [single]: trees start empty, as NewTree makes them. *)
Theorem C81_exact : forall U (h : heap U) (ops : list (wop (value U))), Forall wop_ok ops -> Forall single ops ->
  wp (run_hist x_exec ops []) h ∅ (fun r h' _ => h ⊆ h' /\ exists gs, urun 1 ops [] gs r.2).
Proof. exact @pf_ux_exact. Qed.
Print Assumptions C81_exact.

(** C81: so the calls alone determine what each of them returns, wherever memory is
    allocated. *)
Theorem C81_results : forall U (ops : list (wop (value U))), Forall wop_ok ops -> Forall single ops ->
  exists outs gs, urun 1 ops [] gs outs /\
  forall h : heap U, wp (run_hist x_exec ops []) h ∅ (fun r _ _ => r.2 = outs).
Proof. exact @pf_ux_results. Qed.
Print Assumptions C81_results.

(** C81: a version that is reached holds the new network and, for all other networks, what
    it held before. The same goes for what InsertNet and DeleteByNet return. *)
Theorem C81_reached : forall U n (g : xver U) p v q, xholds (xaffected n g p v) q = if decide (p = q) then Some v else xholds g q.
Proof. exact @pf_ux_holds_affected. Qed.
Print Assumptions C81_reached.
Theorem C81_inserted : forall U n (g : xver U) p v q, xholds (xinserted n g p v) q = if decide (p = q) then Some v else xholds g q.
Proof. exact @pf_ux_holds_inserted. Qed.
Print Assumptions C81_inserted.
Theorem C81_deleted : forall U n (g : xver U) p q, xholds (xdeleted n g p) q = if decide (ncovers p q) then None else xholds g q.
Proof. exact @pf_ux_holds_deleted. Qed.
Print Assumptions C81_deleted.

(** C81: a tree [a] and the tree [b] that InsertNet of an IPv6 network made from it:
    InplaceInsertNet of an IPv4 network into [b] changes [a] as well, unless [a] had no
    part on the way to it. *)
Theorem C81_parent : forall U (ops : list (wop (value U))) (gs gs' : list (xver U)) outs outs' i k1 v1 k2 v2 q1 q2,
  urun 1 ops [] gs outs -> i < length gs -> ikey_is k1 (Some (true, q1)) -> ikey_is k2 (Some (false, q2)) ->
  urun (S (length ops)) [WCall (IInsert i k1 v1); WInplace (length gs) k2 v2] gs gs' outs' ->
  let a := nth i gs (xver0 U) in
  let around := exists X, lowest (content (xfour a)) q2 X in
  (around -> forall q, xholds (nth i gs' (xver0 U)) q = if decide ((false, q2) = q) then Some v2 else xholds a q) /\
  (~ around -> forall q, xholds (nth i gs' (xver0 U)) q = xholds a q).
Proof. exact @pf_ux_parent. Qed.
Print Assumptions C81_parent.

(** C81: [b] is made from [a] by InsertNet of any network that is not kept at the key of the
    IPv6 network [q2]: if [a] holds [q2], then giving it a new value in [b] in place gives
    it this value in [a] as well. *)
Theorem C81_overwrite : forall U (ops : list (wop (value U))) (gs gs' : list (xver U)) outs outs' i k1 v1 k2 v2 p1 q2,
  urun 1 ops [] gs outs -> i < length gs -> ikey_is k1 (Some p1) -> ikey_is k2 (Some (true, q2)) ->
  urun (S (length ops)) [WCall (IInsert i k1 v1); WInplace (length gs) k2 v2] gs gs' outs' ->
  let a := nth i gs (xver0 U) in
  (p1.1 = true -> spot p1.2 <> spot q2) -> xholds a (true, q2) <> None ->
  forall q, xholds (nth i gs' (xver0 U)) q = if decide ((true, q2) = q) then Some v2 else xholds a q.
Proof. exact @pf_ux_overwrite. Qed.
Print Assumptions C81_overwrite.

(** ** The history of Properties_ip_stamp.v gives the same here. The calls below
    do not: version 1 is version 0, which has fd00::/8, with fd00::/96; then fd00::/8 gets
    a new value (2) in version 1, in place. A tree of uintX gets it in version 0 as well,
    an iptree does not. *)
Example ux_stamp_run : match result (run (run_hist x_exec ip_stamp_ops []) ∅ 1%positive) with
  | inl r => map (fun x => match x with IOList e => map snd e | _ => [] end) r.2
  | inr _ => [] end =
  [ []; []; []; []; []; []; []; []; []; [];
    [VUser 0; VUser 5; VUser 8]; [VUser 0; VUser 5; VUser 1]; [VUser 0; VUser 5; VUser 1; VUser 2; VUser 6; VUser 7];
    [VUser 0; VUser 5; VUser 3; VUser 1; VUser 2; VUser 6; VUser 7]; [VUser 0; VUser 5; VUser 3; VUser 1; VUser 2; VUser 6; VUser 4] ].
Proof. vm_compute. reflexivity. Qed.
Definition ux_overwrite_ops : list (wop (value nat)) :=
  [ WCall (IBuild []); WInplace 0 (KNet nfd_8) (VUser 0); WCall (IInsert 0 (KNet nfd_96) (VUser 1)); WInplace 1 (KNet nfd_8) (VUser 2); WCall (IGet 0 (KNet nfd_8)) ].
Example ux_overwrite_ok : Forall wop_ok ux_overwrite_ops /\ Forall single ux_overwrite_ops.
Proof. split; repeat constructor. Qed.
Example ux_overwrite_run : match result (run (run_hist x_exec ux_overwrite_ops []) ∅ 1%positive) with inl r => r.2 | inr _ => [] end =
  [IONone; IONone; IONone; IONone; IOVal (Some (VUser 2))].
Proof. vm_compute. reflexivity. Qed.
Example ux_overwrite_iptree : match result (run (run_hist w_exec ux_overwrite_ops []) ∅ 1%positive) with inl r => r.2 | inr _ => [] end =
  [IONone; IONone; IONone; IONone; IOVal (Some (VUser 0))].
Proof. vm_compute. reflexivity. Qed.

(** ** [C81_overwrite] and [C81_parent] have cases: [a] is version 0 of these calls, for any
    network put there first, any one inserted then and any one inserted in place last. *)
Example ux_stamp_parent : forall n1 p1 n2 n3, ikey_is (KNet n1) (Some p1) -> exists gs gs' outs outs',
  urun 1 [WCall (IBuild []); WInplace 0 (KNet n1) (VUser 0)] [] gs outs /\ 0 < length gs /\
  urun 3 [WCall (IInsert 0 (KNet n2) (VUser 1)); WInplace (length gs) (KNet n3) (@VUser nat 3)] gs gs' outs' /\
  xholds (nth 0 gs (xver0 nat)) p1 = Some (VUser 0).
Proof.
  intros n1 p1 n2 n3 Hk. destruct (C81_results nat [WCall (IBuild []); WInplace 0 (KNet n1) (VUser 0); WCall (IInsert 0 (KNet n2) (VUser 1)); WInplace 1 (KNet n3) (VUser 3)]) as (outs & gs' & H & _); [by repeat constructor|by repeat constructor|].
  destruct outs as [|x1 [|x2 outs]]; [done|by destruct H as (? & _ & [])|]. destruct H as (gs1 & H1 & gs2 & H2 & H3). exists gs2, gs', [x1; x2], outs.
  assert (Hl : length gs2 = 1 /\ xholds (nth 0 gs2 (xver0 nat)) p1 = Some (VUser 0)).
  { inversion H1; subst. apply ustep_inplace in H2 as (_ & [(p & Hp & _ & F)|[[N|N] _]]); [|by pose proof (ikey_det _ _ _ Hk N)|done].
    pose proof (ikey_det _ _ _ Hp Hk) as [= ->]. cbn [app nth] in F. inversion F as [|? g2 ? gs3 [A _] F2]; subst. inversion F2; subst. split; [done|]. cbn [nth]. rewrite A by (by left). rewrite C81_reached. by rewrite decide_True. }
  destruct Hl as [Hl Hv]. rewrite Hl. split; [|split; [lia|by split]]. cbn [urun]. exists gs1. split; [done|]. by exists gs2.
Qed.
Example ux_overwrite_spots : spot (96, N.shiftl 253 88)%N <> spot (8, 253)%N.
Proof. by vm_compute. Qed.
