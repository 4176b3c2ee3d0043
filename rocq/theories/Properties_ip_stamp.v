(** * Property C80: exactly which versions of an iptree see an in-place insertion. *)
(** [w_exec] (IpVersProofs.v): the client of C72, any calls in any order on any versions.
    [istep] (IpStampSpec.v): what the calls return. It keeps for each version the number of
    the call that made its *Tree and that of the call that made each part of it. *)
From Verif Require Import Prog History NumModel NumSpec NumNavSpec StampSpec StampProofs IpModel IpSpec IpHist IpVersSpec IpVersProofs IpStampSpec IpStampProofs Properties_iptree Properties_iptree2 Properties_ip_versions.
Open Scope nat_scope.

(** C80: InplaceInsertNet and InplaceInsertIP reach the versions that are the same *Tree,
    those that have the part around the new network from the same call, and for a network
    inside a /64 also those that have that /64 from the same call. These get the insertion
    and every other version stays as it is. No call panics, and none writes to memory that
    was there before. [single]: trees start empty, as NewTree makes them. *)
Theorem C80_exact : forall U (h : heap U) (ops : list (wop (value U))), Forall wop_ok ops -> Forall single ops ->
  wp (run_hist w_exec ops []) h ∅ (fun r h' _ => h ⊆ h' /\ exists gs, irun 1 ops [] gs r.2).
Proof. exact @pf_ip_exact. Qed.
Print Assumptions C80_exact.

(** C80: so the calls alone determine what each of them returns, wherever memory is
    allocated. *)
Theorem C80_results : forall U (ops : list (wop (value U))), Forall wop_ok ops -> Forall single ops ->
  exists outs gs, irun 1 ops [] gs outs /\
  forall h : heap U, wp (run_hist w_exec ops []) h ∅ (fun r _ _ => r.2 = outs).
Proof. exact @pf_ip_results. Qed.
Print Assumptions C80_results.

(** C80: a version that is reached holds the new network and, for all other networks, what
    it held before. The same goes for what InsertNet and DeleteByNet return. *)
Theorem C80_reached : forall U n (g : iver U) p v q, holds (affected n g p v) q = if decide (p = q) then Some v else holds g q.
Proof. exact @pf_ip_holds_affected. Qed.
Print Assumptions C80_reached.
Theorem C80_inserted : forall U n (g : iver U) p v q, holds (inserted n g p v) q = if decide (p = q) then Some v else holds g q.
Proof. exact @pf_ip_holds_inserted. Qed.
Print Assumptions C80_inserted.
Theorem C80_deleted : forall U n (g : iver U) p q, holds (deleted n g p) q = if decide (ncovers p q) then None else holds g q.
Proof. exact @pf_ip_holds_deleted. Qed.
Print Assumptions C80_deleted.

(** C80: a tree [a] and the tree [b] that InsertNet of an IPv6 network made from it:
    InplaceInsertNet of an IPv4 network into [b] changes [a] as well, unless [a] had no
    part on the way to it. *)
Theorem C80_parent : forall U (ops : list (wop (value U))) (gs gs' : list (iver U)) outs outs' i k1 v1 k2 v2 q1 q2,
  irun 1 ops [] gs outs -> i < length gs -> ikey_is k1 (Some (true, q1)) -> ikey_is k2 (Some (false, q2)) ->
  irun (S (length ops)) [WCall (IInsert i k1 v1); WInplace (length gs) k2 v2] gs gs' outs' ->
  let a := nth i gs (iver0 U) in
  let around := exists X, lowest (content (four a)) q2 X in
  (around -> forall q, holds (nth i gs' (iver0 U)) q = if decide ((false, q2) = q) then Some v2 else holds a q) /\
  (~ around -> forall q, holds (nth i gs' (iver0 U)) q = holds a q).
Proof. exact @pf_ip_parent. Qed.
Print Assumptions C80_parent.

(** ** Five versions. Version 0 has 10.0.0.0/8; version 1 in addition fd00::/8; version 2
    fd00::/96 as well, which is inside the /64 fd00::; version 3 in addition 192.0.0.0/8;
    version 4 is version 3 with fd00:0:0:0:8000::/96.
    In-place insertion of 10.1.0.0/16 into version 1 (5) reaches versions 0, 2, 3 and 4, which
    have 10.0.0.0/8 from the same call. That of fd00::/128 into version 3 (6) reaches version 2,
    which has fd00::/96 from the same call, and version 4. That of fd00:0:0:0:8000::/128 into
    version 2 (7) reaches version 3, which has the /64 fd00:: from the same call, though
    neither had a part inside it on the way there; it does not reach version 4. That of
    192.1.0.0/16 into version 0 (8) reaches no other. *)
Definition nfd_96 : ipnet := Some (xfd :: repeat x00 15, repeat xff 12 ++ repeat x00 4).
Definition nfd_128 : ipnet := Some (xfd :: repeat x00 15, repeat xff 16).
Definition nfd8_96 : ipnet := Some (xfd :: repeat x00 7 ++ x80 :: repeat x00 7, repeat xff 12 ++ repeat x00 4).
Definition nfd8_128 : ipnet := Some (xfd :: repeat x00 7 ++ x80 :: repeat x00 7, repeat xff 16).
Definition n192_1_16 : ipnet := Some ([xc0; x01; x00; x00], [xff; xff; x00; x00]).
Definition ip_stamp_ops : list (wop (value nat)) :=
  [ WCall (IBuild []); WInplace 0 (KNet n10_8) (VUser 0); WCall (IInsert 0 (KNet nfd_8) (VUser 1)); WCall (IInsert 1 (KNet nfd_96) (VUser 2));
    WCall (IInsert 2 (KNet n192_8) (VUser 3)); WCall (IInsert 3 (KNet nfd8_96) (VUser 4));
    WInplace 1 (KNet n10_1_16) (VUser 5); WInplace 3 (KNet nfd_128) (VUser 6); WInplace 2 (KNet nfd8_128) (VUser 7); WInplace 0 (KNet n192_1_16) (VUser 8);
    WCall (IEnumerate 0); WCall (IEnumerate 1); WCall (IEnumerate 2); WCall (IEnumerate 3); WCall (IEnumerate 4) ].
Example ip_stamp_ok : Forall wop_ok ip_stamp_ops /\ Forall single ip_stamp_ops.
Proof. split; repeat constructor. Qed.
Example ip_stamp_run : match result (run (run_hist w_exec ip_stamp_ops []) ∅ 1%positive) with
  | inl r => map (fun x => match x with IOList e => map snd e | _ => [] end) r.2
  | inr _ => [] end =
  [ []; []; []; []; []; []; []; []; []; [];
    [VUser 0; VUser 5; VUser 8]; [VUser 0; VUser 5; VUser 1]; [VUser 0; VUser 5; VUser 1; VUser 2; VUser 6; VUser 7];
    [VUser 0; VUser 5; VUser 3; VUser 1; VUser 2; VUser 6; VUser 7]; [VUser 0; VUser 5; VUser 3; VUser 1; VUser 2; VUser 6; VUser 4] ].
Proof. vm_compute. reflexivity. Qed.

(** ** [C80_parent] has cases of both kinds: [a] is version 0 of the history above after its
    first two calls and [b] version 1; [a] has the part 10.0.0.0/8 on the way to 10.1.0.0/16
    and none on the way to 192.1.0.0/16. *)
Example ip_stamp_parent : forall k2, exists gs gs' outs outs',
  irun 1 [WCall (IBuild []); WInplace 0 (KNet n10_8) (VUser 0)] [] gs outs /\ 0 < length gs /\
  irun 3 [WCall (IInsert 0 (KNet nfd_8) (VUser 1)); WInplace (length gs) (KNet k2) (@VUser nat 3)] gs gs' outs'.
Proof.
  intros k2. destruct (C80_results nat [WCall (IBuild []); WInplace 0 (KNet n10_8) (VUser 0); WCall (IInsert 0 (KNet nfd_8) (VUser 1)); WInplace 1 (KNet k2) (VUser 3)]) as (outs & gs' & H & _); [by repeat constructor|by repeat constructor|].
  destruct outs as [|x1 [|x2 outs]]; [done|by destruct H as (? & _ & [])|]. destruct H as (gs1 & H1 & gs2 & H2 & H3). exists gs2, gs', [x1; x2], outs.
  assert (Hl : length gs2 = 1). { inversion H1; subst. apply istep_inplace in H2 as (_ & [(? & _ & _ & F)|[_ ->]]); [|done]. by apply Forall2_length in F. }
  rewrite Hl. split; [|split; [lia|exact H3]]. cbn [irun]. exists gs1. split; [done|]. by exists gs2.
Qed.
Example ip_stamp_around : forall m, m = put ∅ (8, 10)%N (@VUser nat 0) -> lowest m (16, 2561)%N (8, 10)%N /\ ~ exists X, lowest m (16, 49153)%N X.
Proof.
  intros m ->. split; [by apply (bool_decide_unpack _); vm_compute|]. intros [X HX].
  assert (HF : Forall (fun X => ~ lowest (put ∅ (8, 10)%N (@VUser nat 0)) (16, 49153)%N X) (heads (16, 49153)%N)) by (by apply (bool_decide_unpack _); vm_compute).
  rewrite Forall_forall in HF. apply (HF X); [|done]. apply heads_spec, HX.
Qed.
