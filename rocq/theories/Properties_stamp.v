(** * Property C79: exactly which versions of a radix tree see an in-place insertion. *)
(** [v_exec] (VersProofs.v): the client of C71, any calls in any order on any versions.
    [sstep] (StampSpec.v): what the calls return. It keeps for each version the number of
    the call that made each part of it; an in-place insertion reaches the versions that
    have the part around the new prefix from the same call as the version inserted into,
    and no others. *)
From Verif Require Import Prog History NumModel NumSpec NumAbs NumPropProofs NumNavSpec VersSpec VersProofs StampSpec StampProofs.
Open Scope nat_scope.

(** C79: every version that shares the part around the new prefix gets the insertion and
    every other version stays as it is. No call panics, and none writes to memory that was
    there before. *)
Theorem C79_exact : forall U c (h : heap U) (ops : list (vop U)), num_cfg c -> Forall (vop_ok (cW c)) ops ->
  wp (run_hist (v_exec c) ops [None]) h ∅ (fun r h' _ => h ⊆ h' /\ exists gs, srun (cW c) 1 ops [ver0 U] gs r.2).
Proof. intros U c h ops Hc. exact (pf_exact c (num_cfg_ok c Hc) h ops). Qed.
Print Assumptions C79_exact.

(** This settles every result: the calls alone determine what each of them returns,
    wherever the nodes are in memory. *)
Theorem C79_results : forall U c (ops : list (vop U)), num_cfg c -> Forall (vop_ok (cW c)) ops ->
  exists outs gs, srun (cW c) 1 ops [ver0 U] gs outs /\
  forall h : heap U, wp (run_hist (v_exec c) ops [None]) h ∅ (fun r _ _ => r.2 = outs).
Proof. intros U c ops Hc. exact (pf_results c ops (num_cfg_ok c Hc)). Qed.
Print Assumptions C79_results.

(** A tree [a] and the tree [b] that Insert of [k1] made from it: InplaceInsert of [k2]
    into [b] changes [a] exactly if the last node of [b] on the way to [k2] is not on the
    way to [k1]. *)
Theorem C79_parent : forall U W (ops : list (vop U)) (gs gs' : list (ver U)) outs outs' i k1 b1 v1 k2 b2 v2,
  srun W 1 ops [ver0 U] gs outs -> i < length gs ->
  srun W (S (length ops)) [VCall (NInsert i k1 b1 v1); VInplace (length gs) k2 b2 v2] gs gs' outs' ->
  let m := content (nth i gs (ver0 U)) in
  let m1 := s_insert W m k1 (adj W b1) v1 in
  let between := exists X, lowest m1 (norm W k2 (adj W b2)) X /\ ~ covers X (norm W k1 (adj W b1)) in
  (between -> content (nth i gs' (ver0 U)) = s_insert W m k2 (adj W b2) v2) /\
  (~ between -> content (nth i gs' (ver0 U)) = m).
Proof. intros U W ops gs gs' outs outs' i k1 b1 v1 k2 b2 v2. exact (pf_parent W ops gs gs' outs outs' i k1 b1 v1 k2 b2 v2). Qed.
Print Assumptions C79_parent.

(** ** Four versions. Version 1 has 10.0.0.0/8, version 2 in addition 192.0.0.0/8, version 3
    192.168.0.0/16 as well, version 4 is version 3 without 10.0.0.0/8. An in-place insertion of
    10.1.0.0/16 into version 2 reaches versions 1 and 3, which have 10.0.0.0/8 from the same
    call; one of 192.1.0.0/16 into version 2 reaches no other, as call 3 copied 192.0.0.0/8;
    one of 192.168.1.0/24 into version 4 reaches version 3. *)
Definition st_ops : list (vop nat) :=
  [ VCall (NInsert 0 0x0a000000 8 (VUser 1)); VCall (NInsert 1 0xc0000000 8 (VUser 2));
    VCall (NInsert 2 0xc0a80000 16 (VUser 3)); VCall (NDelete 3 0x0a000000 8);
    VInplace 2 0x0a010000 16 (VUser 5); VInplace 2 0xc0010000 16 (VUser 6); VInplace 4 0xc0a80100 24 (VUser 7);
    VCall (NEnumerate 1); VCall (NEnumerate 2); VCall (NEnumerate 3); VCall (NEnumerate 4) ].
Example st_ok : Forall (vop_ok 32) st_ops.
Proof. repeat constructor. Qed.
Example st_run : match result (run (run_hist (v_exec c32) st_ops [None]) ∅ 1%positive) with
  | inl r => map (fun x => match x with OList e => map (fun y => y.2) e | _ => [] end) r.2
  | inr _ => [] end =
  [ []; []; []; []; []; []; [];
    [VUser 1; VUser 5]; [VUser 1; VUser 5; VUser 2; VUser 6]; [VUser 1; VUser 5; VUser 2; VUser 3; VUser 7]; [VUser 2; VUser 3; VUser 7] ].
Proof. vm_compute. reflexivity. Qed.

(** ** [C79_parent] has cases of both kinds: [a] is version 1 above and [b] version 2; the
    last node of [b] on the way to 10.1.0.0/16 is 10.0.0.0/8, not on the way to 192.0.0.0/8;
    the last one on the way to 255.0.0.0/8 is that of the prefix of length 0 (see [vers_run]
    in Properties_versions.v for what the calls do). *)
Example st_parent : forall k2, (k2 < 2 ^ 32)%N -> exists gs gs' outs outs',
  srun 32 1 [VCall (NInsert 0 0x0a000000 8 (VUser 1))] [ver0 nat] gs outs /\ 1 < length gs /\
  srun 32 2 [VCall (NInsert 1 0xc0000000 8 (VUser 2)); VInplace (length gs) k2 8 (VUser 3)] gs gs' outs'.
Proof.
  intros k2 Hk. destruct (C79_results nat c32 [VCall (NInsert 0 0x0a000000 8 (VUser 1)); VCall (NInsert 1 0xc0000000 8 (VUser 2)); VInplace 2 k2 8 (VUser 3)]) as (outs & gs' & H & _); [by left|by repeat constructor|].
  destruct outs as [|x outs]; [done|]. destruct H as (gs & H1 & H2). exists gs, gs', [x], outs. inversion H1; subst. split; [by eexists|]. split; [cbn; lia|exact H2].
Qed.
Example st_between : forall m1, m1 = s_insert 32 (s_insert 32 ∅ 0x0a000000 8 (VUser 1)) 0xc0000000 8 (@VUser nat 2) ->
  lowest m1 (norm 32 0x0a010000 16) (8, 10)%N /\ ~ covers (8, 10)%N (norm 32 0xc0000000 8) /\
  lowest m1 (norm 32 0xff000000 8) (0, 0)%N /\ covers (0, 0)%N (norm 32 0xc0000000 8).
Proof. intros m1 ->. repeat (split; [by apply (bool_decide_unpack _); vm_compute|]). by apply (bool_decide_unpack _); vm_compute. Qed.
